(** Proofs about encrypted memory under the ideal functionality. *)
Require Import ZArith List Bool Lia Permutation.
Require Import Verif.Word Verif.ListFacts Verif.Bdd Verif.Glwe Verif.GlweFacts Verif.Par Verif.ParFacts
  Verif.EncMem Verif.MemSpec.
Import ListNotations.
Open Scope nat_scope.

(** ** sizes *)
Lemma bit_len_bounds n k : bit_len_pred (Z.of_nat n) = Some k ->
  0 < n /\ n <= 2 ^ k /\ (0 < k -> 2 ^ (k - 1) < n).
Proof.
  unfold bit_len_pred. destruct (Z.leb_spec (Z.of_nat n) 0); [discriminate|].
  intro E; injection E as <-. destruct (Z.eqb_spec (Z.of_nat n) 1).
  - cbn. lia.
  - pose proof (Z.log2_nonneg (Z.of_nat n - 1)) as Hn.
    destruct (Z.log2_spec (Z.of_nat n - 1)) as [L U]; [lia|].
    set (l := Z.log2 (Z.of_nat n - 1)) in *.
    split; [lia|].
    replace (Z.to_nat (l + 1)) with (S (Z.to_nat l)) by lia.
    assert (P : Z.of_nat (2 ^ Z.to_nat l) = (2 ^ l)%Z).
    { rewrite Nat2Z.inj_pow, Z2Nat.id by lia. reflexivity. }
    rewrite Z.pow_succ_r in U by lia.
    replace (S (Z.to_nat l) - 1) with (Z.to_nat l) by lia.
    cbn [Nat.pow]. lia.
Qed.
Lemma div_ceil_bounds a b q : div_ceil a b = Some q -> 0 < b /\ a <= b * q /\ (0 < a -> b * (q - 1) < a /\ 0 < q).
Proof.
  destruct b as [|b]; [discriminate|]. unfold div_ceil. intro E. assert (q = (a + b) / S b) as -> by congruence.
  pose proof (Nat.div_mod (a + b) (S b) ltac:(lia)).
  pose proof (Nat.mod_upper_bound (a + b) (S b) ltac:(lia)).
  set (q := (a + b) / S b) in *. set (r := (a + b) mod S b) in *.
  assert (0 < a -> 0 < q). { intro. destruct q; [|lia]. rewrite Nat.mul_0_r in *. lia. }
  rewrite Nat.mul_sub_distr_l, Nat.mul_1_r. set (m := S b * q) in *. clearbody m r. lia.
Qed.

Section One.
Variable log : nat.
Notation I := (Ideal log).
Notation N := (ring log).

(** the polynomial and coefficient an address leads to *)
Definition slot_poly (bits len : nat) (addr : list bool) (offset : nat) : nat :=
  if log <? bits then front addr (offset + log) (bits - log) len else 0.
Definition slot_coef (bits : nat) (addr : list bool) (offset : nat) : nat := aval addr offset (min log bits).

Lemma slot_coef_lt bits addr offset : slot_coef bits addr offset < N.
Proof.
  unfold slot_coef. eapply Nat.lt_le_trans; [apply aval_lt|].
  unfold ring. apply Nat.pow_le_mono_r; lia.
Qed.
Lemma slot_poly_lt bits len addr offset : 0 < len -> slot_poly bits len addr offset < len.
Proof. intro H. unfold slot_poly. destruct (log <? bits); auto. now apply front_lt. Qed.

Definition set_coef (data : list poly) (i v : nat) (c : Z) : list poly :=
  upd data i (upd (nth i data []) v c).

(** ** one bit plane *)
Variables (b : bitarray poly) (addr : list bool) (offset : nat).
Hypothesis Hdata : 0 < length (ba_data b).
Hypothesis Hpoly : Forall (fun p : poly => length p = N) (ba_data b).
Hypothesis Haddr : offset + ba_bits b <= length addr.

Let si := slot_poly (ba_bits b) (length (ba_data b)) addr offset.
Let sv := slot_coef (ba_bits b) addr offset.

Definition gathered : list poly :=
  if log <? ba_bits b then gather log addr (offset + log) (ba_bits b - log) (ba_data b) else ba_data b.

Lemma gather_eq : ba_gather I b addr offset = Some gathered.
Proof.
  unfold ba_gather, gathered. cbn [log_n Ideal].
  destruct (Nat.ltb_spec log (ba_bits b)); auto.
  unfold retrieval_statefull.
  rewrite (proj2 (Nat.leb_le _ _)) by lia. reflexivity.
Qed.
Lemma gathered_length : length gathered = length (ba_data b).
Proof. unfold gathered. destruct (log <? ba_bits b); auto. apply gather_length. Qed.
Lemma poly_at i p : nth_error (ba_data b) i = Some p -> length p = N.
Proof. intro H. apply (nth_error_Forall _ (fun p : poly => length p = N) _ _ _ Hpoly H). Qed.
Lemma gathered_front : exists p, nth_error gathered 0 = Some p /\ nth_error (ba_data b) si = Some p /\ length p = N.
Proof.
  assert (E : nth_error gathered 0 = nth_error (ba_data b) si).
  { unfold gathered, si, slot_poly. destruct (log <? ba_bits b); auto. now apply gather_front. }
  destruct (nth_error_lt _ (ba_data b) si) as [p Hp]; [now apply slot_poly_lt|].
  exists p. rewrite E. repeat split; auto. eapply poly_at; eauto.
Qed.
Lemma scattered x : ba_scatter I (ba_bits b) (upd gathered 0 x) addr offset = Some (upd (ba_data b) si x).
Proof.
  unfold ba_scatter, gathered, si, slot_poly. cbn [log_n Ideal].
  destruct (Nat.ltb_spec log (ba_bits b)); auto.
  unfold retrieval_statefull_rev.
  rewrite (proj2 (Nat.leb_le _ _)) by lia. f_equal. now apply (scatter_gather_upd log addr (offset + log)).
Qed.

Lemma rot_eq sign p : length p = N ->
  blind_rotate I sign addr offset (min log (ba_bits b)) p
  = Some (rotate log ((if sign then 1 else -1) * Z.of_nat sv) p).
Proof. intro L. rewrite (blind_rotate_ideal log sign addr offset (min log (ba_bits b)) p) by (auto; lia). reflexivity. Qed.

Lemma ba_statefull : exists b1 d,
  ba_read_statefull I b addr offset = Some (b1, d) /\ ba_bits b1 = ba_bits b /\
  length (ba_data b1) = length (ba_data b) /\
  nth 0 d 0%Z = nth sv (nth si (ba_data b) []) 0%Z /\
  forall c, ba_read_statefull_rev I b1 (const_poly log c) addr offset
            = Some (BitArray (set_coef (ba_data b) si sv c) (ba_bits b)).
Proof.
  destruct gathered_front as (p & F1 & F2 & L).
  assert (Hp : nth si (ba_data b) [] = p) by exact (nth_error_nth _ _ [] F2).
  unfold ba_read_statefull. rewrite gather_eq.
  rewrite F1. cbn [log_n Ideal]. rewrite rot_eq by auto.
  rewrite set_nth_upd by (rewrite gathered_length; auto).
  eexists _, _. split; [reflexivity|]. cbn [ba_bits ba_data].
  split; [reflexivity|]. split; [now rewrite upd_length, gathered_length|]. split.
  - rewrite Z.mul_comm. replace (Z.of_nat sv * -1)%Z with (- Z.of_nat sv)%Z by lia.
    rewrite rotate_read by apply slot_coef_lt.
    now rewrite Hp.
  - intro c. unfold ba_read_statefull_rev. cbn [ba_data ba_bits].
    rewrite upd_nth_error. cbn [Nat.eqb].
    rewrite gathered_length. destruct (Nat.ltb_spec 0 (length (ba_data b))); [|lia].
    cbn [a_add a_sub a_trace Ideal log_n].
    rewrite overwrite by apply rotate_length.
    rewrite rot_eq by (rewrite upd_length; apply rotate_length).
    rewrite Z.mul_1_l. replace (-1 * Z.of_nat sv)%Z with (- Z.of_nat sv)%Z by lia.
    rewrite rotate_write by (auto; apply slot_coef_lt).
    rewrite set_nth_upd by (rewrite upd_length, gathered_length; auto).
    rewrite upd_upd, scattered. unfold set_coef. now rewrite Hp.
Qed.

Lemma ba_write_eq c : ba_write I b (const_poly log c) addr offset
  = Some (BitArray (set_coef (ba_data b) si sv c) (ba_bits b)).
Proof.
  destruct gathered_front as (p & F1 & F2 & L).
  assert (Hp : nth si (ba_data b) [] = p) by exact (nth_error_nth _ _ [] F2).
  unfold ba_write. rewrite gather_eq.
  rewrite F1. cbn [log_n Ideal]. rewrite rot_eq by auto.
  cbn [a_add a_sub a_trace Ideal log_n].
  rewrite overwrite by apply rotate_length.
  rewrite rot_eq by (rewrite upd_length; apply rotate_length).
  rewrite Z.mul_1_l. replace (-1 * Z.of_nat sv)%Z with (- Z.of_nat sv)%Z by lia.
  rewrite rotate_write by (auto; apply slot_coef_lt).
  rewrite set_nth_upd by (rewrite gathered_length; auto).
  rewrite scattered. unfold set_coef. now rewrite Hp.
Qed.

End One.

(** ** addresses *)
Lemma aval_of addr offset k a : addresses addr offset k a -> aval addr offset k = a.
Proof.
  intros (L & Ha & Hb).
  assert (G : forall j, j <= k -> aval addr offset j = a mod 2 ^ j).
  { induction j as [|j IH]; intro Hj; [reflexivity|].
    rewrite aval_S, IH, Hb by lia.
    replace (2 ^ S j) with (2 ^ j * 2) by (cbn; lia).
    rewrite Nat.mod_mul_r by (try apply Nat.pow_nonzero; lia).
    rewrite <- Nat.testbit_spec'. destruct (Nat.testbit a j); cbn [Nat.b2n]; lia. }
  rewrite G by lia. now apply Nat.mod_small.
Qed.

Section Addr.
Variable log : nat.
Notation N := (ring log).
Variables (size bits len a offset : nat) (addr : list bool).
Hypothesis Hbits : bit_len_pred (Z.of_nat size) = Some bits.
Hypothesis Hlen : div_ceil size N = Some len.
Hypothesis Ha : addresses addr offset bits a.

Lemma ring_pow : N = 2 ^ log. Proof. reflexivity. Qed.
Lemma len_pos : 0 < len.
Proof.
  destruct (bit_len_bounds _ _ Hbits) as (P & _). destruct (div_ceil_bounds _ _ _ Hlen) as (_ & _ & H). tauto.
Qed.
Lemma split_hi : log < bits -> aval addr (offset + log) (bits - log) = a / N /\ aval addr offset log = a mod N.
Proof.
  intro H. pose proof (aval_of _ _ _ _ Ha) as E. destruct Ha as (L & _ & _).
  replace bits with (log + (bits - log)) in E by lia. rewrite aval_add in E by lia.
  pose proof (aval_lt addr offset log) as B. pose proof (ring_pos log). rewrite <- ring_pow in *.
  set (x := aval addr offset log) in *. set (y := aval addr (offset + log) (bits - log)) in *.
  clearbody x y. subst a. split.
  - apply Nat.div_unique with x; lia.
  - apply Nat.mod_unique with y; lia.
Qed.
Lemma small_lo : bits <= log -> a < N /\ aval addr offset bits = a.
Proof.
  intro H. split; [|now apply aval_of]. destruct Ha as (_ & B & _).
  eapply Nat.lt_le_trans; [exact B|]. rewrite ring_pow. apply Nat.pow_le_mono_r; lia.
Qed.
Lemma slot_coef_of : slot_coef log bits addr offset = a mod N.
Proof.
  unfold slot_coef. destruct (le_lt_dec bits log).
  - rewrite Nat.min_r by auto. destruct small_lo as [B E]; auto. rewrite E. symmetry. now apply Nat.mod_small.
  - rewrite Nat.min_l by lia. now apply split_hi.
Qed.
Lemma slot_poly_of : a < N * len -> slot_poly log bits len addr offset = a / N.
Proof.
  intro B. unfold slot_poly. destruct (Nat.ltb_spec log bits) as [H|H].
  - destruct (split_hi H) as [E _]. rewrite front_in_range; auto.
    + destruct Ha; lia.
    + rewrite E. apply Nat.div_lt_upper_bound; [pose proof (ring_pos log); lia|auto].
  - destruct (small_lo H) as [B' _]. symmetry. now apply Nat.div_small.
Qed.
(** the retriever uses exactly the remaining address bits *)
Lemma retriever_bits : Nat.log2_up len = bits - log.
Proof.
  destruct (bit_len_bounds _ _ Hbits) as (P & U & Lo). destruct (div_ceil_bounds _ _ _ Hlen) as (Np & C1 & C2).
  destruct (C2 P) as [C3 Cp]. rewrite ring_pow in *.
  destruct (le_lt_dec bits log) as [H|H].
  - assert (len = 1).
    { assert (2 ^ bits <= 2 ^ log) by (apply Nat.pow_le_mono_r; lia).
      destruct len as [|[|l]]; lia. }
    subst len. replace (bits - log) with 0 by lia. reflexivity.
  - specialize (Lo ltac:(lia)).
    assert (E1 : 2 ^ bits = 2 ^ log * 2 ^ (bits - log)) by (rewrite <- Nat.pow_add_r; f_equal; lia).
    assert (E2 : 2 ^ (bits - 1) = 2 ^ log * 2 ^ (bits - log - 1)) by (rewrite <- Nat.pow_add_r; f_equal; lia).
    assert (2 ^ (bits - log - 1) < len) by nia.
    assert (len - 1 < 2 ^ (bits - log)) by nia.
    destruct (Nat.eq_dec len 1).
    + assert (1 <= 2 ^ (bits - log - 1)). { pose proof (Nat.pow_nonzero 2 (bits - log - 1)); lia. } lia.
    + apply Nat.log2_up_unique; [lia|]. replace (pred (bits - log)) with (bits - log - 1) by lia. lia.
Qed.
End Addr.

Section Plane.
Variable log : nat.
Notation I := (Ideal log).
Notation N := (ring log).

Lemma nth_data (b : bitarray poly) i : Forall (fun p : poly => length p = N) (ba_data b) -> i < length (ba_data b) ->
  length (nth i (ba_data b) []) = N.
Proof.
  intros F H. destruct (nth_error_lt _ _ _ H) as [p Hp].
  assert (E : nth i (ba_data b) [] = p) by exact (nth_error_nth _ _ [] Hp).
  rewrite E. exact (nth_error_Forall _ (fun p : poly => length p = N) _ _ _ F Hp).
Qed.

(** a read returns the addressed coefficient, or zero when there is none *)
Lemma ba_stateless size (b : bitarray poly) addr offset a : plane_shape log size b ->
  addresses addr offset (ba_bits b) a ->
  exists d, ba_read_stateless I b addr offset = Some d /\
    nth 0 d 0%Z = if a <? N * length (ba_data b) then coef log b a else 0%Z.
Proof.
  intros (Hb & Hl & Hp) Ha. unfold ba_read_stateless, blind_retrieve. cbn [log_n Ideal].
  rewrite (retriever_bits log size (ba_bits b) (length (ba_data b)) Hb Hl).
  pose proof Ha as (L & _ & _).
  assert (C : ((ba_bits b - log =? 0) || (offset + log + (ba_bits b - log) <=? length addr)) = true).
  { destruct (Nat.eqb_spec (ba_bits b - log) 0); auto. apply Nat.leb_le. lia. }
  rewrite C. cbn [a_retrieve Ideal].
  change (bits_val (firstn (ba_bits b - log) (skipn (offset + log) addr))) with (aval addr (offset + log) (ba_bits b - log)).
  assert (E : aval addr (offset + log) (ba_bits b - log) = a / N).
  { destruct (le_lt_dec (ba_bits b) log) as [H|H].
    - replace (ba_bits b - log) with 0 by lia.
      destruct (small_lo log (ba_bits b) a offset addr Ha H). symmetry. now apply Nat.div_small.
    - apply (split_hi log (ba_bits b) a offset addr Ha H). }
  rewrite E.
  pose proof (ring_pos log) as NP.
  assert (LP : length (nth (a / N) (ba_data b) (zero_poly log)) = N).
  { destruct (le_lt_dec (length (ba_data b)) (a / N)).
    - rewrite nth_overflow by auto. apply repeat_length.
    - rewrite (nth_indep _ (zero_poly log) []) by auto. now apply nth_data. }
  rewrite (blind_rotate_ideal log false addr offset (min log (ba_bits b))) by (auto; lia).
  eexists; split; [reflexivity|].
  change (aval addr offset (min log (ba_bits b))) with (slot_coef log (ba_bits b) addr offset).
  rewrite (slot_coef_of log (ba_bits b) a offset addr Ha).
  replace (-1 * Z.of_nat (a mod N))%Z with (- Z.of_nat (a mod N))%Z by lia.
  rewrite rotate_read by (apply Nat.mod_upper_bound; lia).
  unfold coef. destruct (Nat.ltb_spec a (N * length (ba_data b))) as [B|B].
  - rewrite (nth_indep _ (zero_poly log) []); auto. apply Nat.div_lt_upper_bound; lia.
  - rewrite (nth_overflow (ba_data b)) by (apply Nat.div_le_lower_bound; lia).
    unfold zero_poly. apply nth_repeat.
Qed.

(** ** updating one coefficient *)
Lemma set_coef_shape size (b : bitarray poly) i v c : plane_shape log size b -> i < length (ba_data b) ->
  plane_shape log size (BitArray (set_coef (ba_data b) i v c) (ba_bits b)).
Proof.
  intros (H1 & H2 & H3) Hi. unfold set_coef. repeat split; cbn [ba_bits ba_data]; auto.
  - now rewrite upd_length.
  - apply Forall_forall. intros p Hp. apply In_nth_error in Hp as [k Hk].
    rewrite upd_nth_error in Hk. destruct (k =? i).
    + destruct (i <? length (ba_data b)); [|discriminate]. injection Hk as <-.
      rewrite upd_length. now apply nth_data.
    + exact (nth_error_Forall _ (fun p : poly => length p = N) _ _ _ H3 Hk).
Qed.
Lemma set_coef_coef size (b : bitarray poly) a c k : plane_shape log size b ->
  a < N * length (ba_data b) -> k < N * length (ba_data b) ->
  coef log (BitArray (set_coef (ba_data b) (a / N) (a mod N) c) (ba_bits b)) k = if k =? a then c else coef log b k.
Proof.
  intros (H1 & H2 & H3) Ha Hk. unfold coef, set_coef. cbn [ba_data].
  pose proof (ring_pos log) as NP.
  assert (Hi : a / N < length (ba_data b)) by (apply Nat.div_lt_upper_bound; lia).
  pose proof (nth_data b (a / N) H3 Hi) as LP.
  assert (E : nth (k / N) (upd (ba_data b) (a / N) (upd (nth (a / N) (ba_data b) []) (a mod N) c)) []
            = if k / N =? a / N then upd (nth (a / N) (ba_data b) []) (a mod N) c else nth (k / N) (ba_data b) []).
  { assert (Hki : k / N < length (ba_data b)) by (apply Nat.div_lt_upper_bound; lia).
    apply nth_error_nth. rewrite upd_nth_error.
    destruct (k / N =? a / N).
    - destruct (Nat.ltb_spec (a / N) (length (ba_data b))); [auto|lia].
    - exact (nth_error_nth' (ba_data b) [] Hki). }
  rewrite E. clear E.
  pose proof (Nat.div_mod k N ltac:(lia)) as Dk. pose proof (Nat.div_mod a N ltac:(lia)) as Da.
  pose proof (Nat.mod_upper_bound a N ltac:(lia)).
  destruct (Nat.eqb_spec (k / N) (a / N)) as [E|E].
  - rewrite upd_nth, LP. destruct (Nat.ltb_spec (a mod N) N); [|lia].
    destruct (Nat.eqb_spec (k mod N) (a mod N)) as [E2|E2]; destruct (Nat.eqb_spec k a) as [E3|E3]; auto.
    + exfalso; apply E3. rewrite Dk, Da, E, E2. reflexivity.
    + subst; lia.
    + now rewrite E.
  - destruct (Nat.eqb_spec k a); [subst; lia|reflexivity].
Qed.
End Plane.
