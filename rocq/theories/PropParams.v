(** * C93: the layouts of the keys *)
Require Import ZArith List Bool Lia.
From Verif Require Import Word Params ParamsSpec.
Import ListNotations.
Open Scope Z_scope.

Lemma together_app : forall b l x, together b (l ++ [x]) = together b l * 2 ^ b + x.
Proof. intros. unfold together. rewrite fold_left_app. reflexivity. Qed.
Lemma together_digits : forall b d n, 0 <= b -> 0 <= n < 2 ^ (b * Z.of_nat d) -> together b (digits_of b d n) = n.
Proof.
  intros b d. induction d as [|d IH]; intros n B N.
  - replace (b * Z.of_nat 0) with 0 in N by lia. change (2 ^ 0) with 1 in N. cbn. lia.
  - cbn [digits_of]. rewrite together_app, IH; [|exact B|].
    + rewrite Z.mul_comm. symmetry. apply Z.div_mod. pose proof (Z.pow_pos_nonneg 2 b). lia.
    + assert (P : 0 < 2 ^ b) by (apply Z.pow_pos_nonneg; lia). split; [apply Z.div_pos; lia|].
      apply Z.div_lt_upper_bound; [exact P|]. rewrite <- Z.pow_add_r by lia.
      replace (b + b * Z.of_nat d) with (b * Z.of_nat (S d)) by lia. lia.
Qed.

(** What the digits stand for: the number rounded down to [d * b] bits. *)
Theorem C93_digits : forall k b d x, 0 <= k -> 0 <= b -> 0 <= x < 2 ^ k ->
  let lost := x * 2 ^ (b * Z.of_nat d) - together b (digits k b d x) * 2 ^ k in
  0 <= lost < 2 ^ k /\ Forall (fun c => 0 <= c < 2 ^ b) (digits k b d x) /\ length (digits k b d x) = d.
Proof.
  intros k b d x K B X lost. assert (P : 0 < 2 ^ k) by (apply Z.pow_pos_nonneg; lia).
  assert (Q : 0 < 2 ^ (b * Z.of_nat d)) by (apply Z.pow_pos_nonneg; lia).
  assert (R : 0 < 2 ^ b) by (apply Z.pow_pos_nonneg; lia).
  split; [|split].
  - unfold lost, digits. rewrite together_digits; [|exact B|].
    + pose proof (Z.div_mod (x * 2 ^ (b * Z.of_nat d)) (2 ^ k)). pose proof (Z.mod_pos_bound (x * 2 ^ (b * Z.of_nat d)) (2 ^ k) P). lia.
    + split; [apply Z.div_pos; nia|]. apply Z.div_lt_upper_bound; [exact P|]. nia.
  - unfold digits. generalize (x * 2 ^ (b * Z.of_nat d) / 2 ^ k). clear - R. induction d as [|d IH]; intros n; cbn [digits_of]; [constructor|].
    apply Forall_app. split; [apply IH|]. constructor; [apply Z.mod_pos_bound; exact R|constructor].
  - unfold digits. generalize (x * 2 ^ (b * Z.of_nat d) / 2 ^ k). clear. induction d as [|d IH]; intros n; cbn [digits_of]; [reflexivity|].
    rewrite app_length, IH. cbn. lia.
Qed.
Print Assumptions C93_digits.

(** Nothing is lost exactly if there are digits enough. *)
Theorem C93_lossless : forall k b d, 0 <= k -> 0 <= b -> lossless k b d <-> k <= b * Z.of_nat d.
Proof.
  intros k b d K B. assert (P : 0 < 2 ^ k) by (apply Z.pow_pos_nonneg; lia). split.
  - intros L. destruct (Z_le_gt_dec k (b * Z.of_nat d)) as [?|G]; [assumption|exfalso].
    assert (X : 0 <= 1 < 2 ^ k) by (split; [lia|apply Z.pow_gt_1; lia]).
    specialize (L 1 X). unfold exact in L. set (t := together _ _) in L. rewrite Z.mul_1_l in L.
    assert (0 < 2 ^ (b * Z.of_nat d)) by (apply Z.pow_pos_nonneg; lia).
    assert (2 ^ (b * Z.of_nat d) < 2 ^ k) by (apply Z.pow_lt_mono_r; lia).
    clearbody t. destruct (Z_le_gt_dec t 0); nia.
  - intros L x X. unfold exact. destruct (C93_digits k b d x K B X) as (H & _).
    set (e := b * Z.of_nat d) in *. replace (2 ^ e) with (2 ^ (e - k) * 2 ^ k) in H |- * by (rewrite <- Z.pow_add_r by lia; f_equal; lia).
    set (t := together _ _) in *. clearbody t. set (g := 2 ^ (e - k)) in *. set (w := 2 ^ k) in *. clearbody g w.
    assert (x * g = t) by nia. nia.
Qed.
Print Assumptions C93_lossless.

Lemma ceil_least : forall k b d, 0 <= k -> 0 < b -> div_ceil k b = Some d <-> k <= b * d /\ b * (d - 1) < k /\ 0 <= d.
Proof.
  intros k b d K B. unfold div_ceil. destruct (Z.eqb_spec b 0); [lia|].
  pose proof (Z.div_mod k b ltac:(lia)). pose proof (Z.mod_pos_bound k b B). pose proof (Z.div_pos k b K B).
  destruct (Z.eqb_spec (k mod b) 0) as [E|E]; split; intros H3.
  - injection H3 as <-. split; [lia|]. split; [|lia]. nia.
  - f_equal. nia.
  - injection H3 as <-. split; [nia|]. split; [nia|lia].
  - f_equal. nia.
Qed.

(** The computed layouts, for all parameters: each has the least number of digits that loses
    nothing of the precision it is computed from: prepared bits that of a word, the keys of the
    memories that of a RAM entry, the keys of the bootstrapping that of a prepared bit. *)
Definition least_digits (l : layout) (k : Z) : Prop :=
  0 <= l_dnum l /\ lossless k (l_base l) (Z.to_nat (l_dnum l)) /\
  forall d, lossless k (l_base l) d -> (Z.to_nat (l_dnum l) <= d)%nat.
Theorem C93_layouts : forall p, 0 < b_fhe p -> 0 < b_brk p -> 0 < b_atk p -> 0 < b_tsk p ->
  0 <= k_fhe p -> 0 <= k_ram p -> 0 <= k_prepared p ->
  (exists l, prepared_layout p = Some l /\ least_digits l (k_fhe p)) /\
  (exists l, evk_layout p = Some l /\ least_digits l (k_ram p)) /\
  (exists l, brk_layout p = Some l /\ least_digits l (k_prepared p)) /\
  (exists l, atk_layout p = Some l /\ least_digits l (k_prepared p)) /\
  (exists l, tsk_layout p = Some l /\ least_digits l (k_prepared p)).
Proof.
  intros p B1 B2 B3 B4 K1 K2 K3.
  assert (D : forall k b, 0 <= k -> 0 < b -> exists d, div_ceil k b = Some d /\ 0 <= d /\ lossless k b (Z.to_nat d) /\
    forall d', lossless k b d' -> (Z.to_nat d <= d')%nat).
  { intros k b K B. destruct (div_ceil k b) as [d|] eqn:E; [|unfold div_ceil in E; destruct (Z.eqb_spec b 0); [lia|discriminate]].
    exists d. split; [reflexivity|]. apply ceil_least in E; [|exact K|exact B]. destruct E as (E1 & E2 & E3). split; [exact E3|]. split.
    - apply C93_lossless; [exact K|lia|]. rewrite Z2Nat.id by exact E3. lia.
    - intros d' L. apply C93_lossless in L; [|exact K|lia]. nia. }
  repeat apply conj;
  match goal with
  | |- context [prepared_layout] => destruct (D _ _ K1 B1) as (d & E & H)
  | |- context [evk_layout] => destruct (D _ _ K2 B1) as (d & E & H)
  | |- context [brk_layout] => destruct (D _ _ K3 B2) as (d & E & H)
  | |- context [atk_layout] => destruct (D _ _ K3 B3) as (d & E & H)
  | |- context [tsk_layout] => destruct (D _ _ K3 B4) as (d & E & H)
  end; eexists; (split; [unfold prepared_layout, evk_layout, brk_layout, atk_layout, tsk_layout, cbt_layout; rewrite E; reflexivity|exact H]).
Qed.
Print Assumptions C93_layouts.

(** What they are applied to with the parameters of [CryptographicParameters::new]: prepared bits
    are applied to words, ROM and RAM entries, the keys of the memories to RAM entries and words:
    nothing is lost.  The switching key from GLWE to GLWE, whose number of digits is written down,
    loses the last four of the thirty bits of a word (every word that has one of them). *)
Theorem C93_new :
  (exists l, prepared_layout params_new = Some l /\
    lossless (k_fhe params_new) (l_base l) (Z.to_nat (l_dnum l)) /\
    lossless (k_rom params_new) (l_base l) (Z.to_nat (l_dnum l)) /\
    lossless (k_ram params_new) (l_base l) (Z.to_nat (l_dnum l))) /\
  (exists l, evk_layout params_new = Some l /\
    lossless (k_ram params_new) (l_base l) (Z.to_nat (l_dnum l)) /\
    lossless (k_fhe params_new) (l_base l) (Z.to_nat (l_dnum l))) /\
  lossless (k_ks_lwe params_new) (l_base (ks_lwe_layout params_new)) (Z.to_nat (l_dnum (ks_lwe_layout params_new))) /\
  (forall x, 0 <= x < 2 ^ k_fhe params_new ->
    (exact (k_fhe params_new) (l_base (ks_glwe_layout params_new)) (Z.to_nat (l_dnum (ks_glwe_layout params_new))) x <-> x mod 16 = 0)).
Proof.
  split; [|split; [|split]].
  - eexists. split; [reflexivity|]. repeat apply conj; apply C93_lossless; vm_compute; discriminate.
  - eexists. split; [reflexivity|]. repeat apply conj; apply C93_lossless; vm_compute; discriminate.
  - apply C93_lossless; vm_compute; discriminate.
  - intros x X. cbn [k_fhe params_new ks_glwe_layout l_base l_dnum b_glwe] in *.
    destruct (C93_digits 30 13 2 x ltac:(lia) ltac:(lia) X) as (H & _). unfold exact.
    change (Z.to_nat 2) with 2%nat. change (15 * 2) with 30 in *. set (t := together _ _) in *.
    change (13 * Z.of_nat 2) with 26 in *. change (2 ^ 26) with 67108864 in *. change (2 ^ 30) with 1073741824 in *. clearbody t.
    split; intros E.
    + assert (x = 16 * t) by lia. subst x. rewrite Z.mul_comm. apply Z.mod_mul. lia.
    + apply Z.mod_divide in E; [|lia]. destruct E as [q ->]. assert (t = q) by lia. lia.
Qed.
Print Assumptions C93_new.

(** So the claim that every key loses nothing is false. *)
Theorem C93_all_lossless_refuted : exists x, 0 <= x < 2 ^ k_fhe params_new /\
  ~ exact (k_fhe params_new) (l_base (ks_glwe_layout params_new)) (Z.to_nat (l_dnum (ks_glwe_layout params_new))) x.
Proof.
  exists 1. destruct C93_new as (_ & _ & _ & H). assert (X : 0 <= 1 < 2 ^ k_fhe params_new) by (cbn; lia).
  split; [exact X|]. intros E. apply (H 1 X) in E. discriminate.
Qed.
Print Assumptions C93_all_lossless_refuted.

Example C93_case : digits 30 13 2 (2 ^ 29 + 2 ^ 17 + 5) = [4097; 0] /\ together 13 [4097; 0] = 33562624 /\
  digits 30 15 2 (2 ^ 29 + 2 ^ 17 + 5) = [16388; 5].
Proof. repeat split. Qed.
