(** * C107: numbers printed are read back *)
Require Import ZArith List Bool Lia.
Require Import Verif.Word Verif.Display Verif.DisplaySpec Verif.Host.
Import ListNotations.
Open Scope Z_scope.

Lemma value_app : forall r s c v, fold_left (fun v c => v * r + (c - 48)) (s ++ [c]) v
  = fold_left (fun v c => v * r + (c - 48)) s v * r + (c - 48).
Proof. intros. now rewrite fold_left_app. Qed.

Lemma fold_shift : forall r s v, fold_left (fun v c => v * r + (c - 48)) s v
  = v * r ^ Z.of_nat (length s) + value r s.
Proof.
  intros r s. induction s as [|c s IH] using rev_ind; intros v; [cbn; lia|].
  rewrite app_length. unfold value. rewrite !value_app, IH. cbn [length].
  replace (Z.of_nat (length s + 1)) with (Z.of_nat (length s) + 1) by lia.
  rewrite Z.pow_add_r by lia. fold (value r s). nia.
Qed.

Lemma value_cons : forall r c s, value r (c :: s) = (c - 48) * r ^ Z.of_nat (length s) + value r s.
Proof. intros. unfold value at 1. cbn [fold_left]. rewrite fold_shift. lia. Qed.

Lemma value_range : forall r s, 1 < r -> Forall (is_digit r) s -> 0 <= value r s < r ^ Z.of_nat (length s).
Proof.
  intros r s R F. induction F as [|c s D F IH]; [cbn; lia|].
  rewrite value_cons. unfold is_digit in D. cbn [length].
  replace (Z.of_nat (S (length s))) with (Z.of_nat (length s) + 1) by lia.
  rewrite Z.pow_add_r by lia. nia.
Qed.

(** of numerals of one length the value determines the digits *)
Lemma value_inj : forall r s t, 1 < r -> Forall (is_digit r) s -> Forall (is_digit r) t ->
  length s = length t -> value r s = value r t -> s = t.
Proof.
  intros r s t R F. revert t. induction F as [|c s D F IH]; intros t G E V.
  - now destruct t.
  - destruct t as [|d t]; [discriminate|]. injection E as E. inversion G as [|? ? D' G']; subst.
    rewrite !value_cons, E in V.
    pose proof (value_range r s R F) as B. pose proof (value_range r t R G') as B'. rewrite E in B.
    assert (c = d) by nia. subst d. f_equal. apply IH; auto. lia.
Qed.

Lemma digits_meaning : forall r, 1 < r <= 10 -> forall f x acc, 0 <= x < r ^ Z.of_nat f -> (1 <= f)%nat ->
  exists s, digits r f x acc = s ++ acc /\ numeral r s x /\ canonical s /\ (length s <= f)%nat.
Proof.
  intros r R f. induction f as [|f IH]; intros x acc X F; [lia|].
  cbn [digits]. pose proof (Z.mod_pos_bound x r ltac:(lia)) as M.
  pose proof (Z.div_mod x r ltac:(lia)) as DM.
  assert (W : digit (x mod r) = 48 + x mod r) by (clear - M R; unfold digit; generalize dependent (x mod r); intros d M; destruct (Z.ltb_spec d 10); lia).
  destruct (Z.eqb_spec (x / r) 0) as [E|E].
  - exists [digit (x mod r)]. rewrite W. split; [reflexivity|]. split; [|split].
    + split; [discriminate|]. split; [constructor; [unfold is_digit; lia|constructor]|].
      unfold value. cbn [fold_left]. rewrite E in DM. lia.
    + intros H. cbn [hd] in H. now rewrite H.
    + cbn. lia.
  - assert (Q : 0 < x / r) by (pose proof (Z.div_pos x r ltac:(lia) ltac:(lia)); lia).
    assert (Q' : x / r < r ^ Z.of_nat f).
    { apply Z.div_lt_upper_bound; [lia|].
      replace (Z.of_nat (S f)) with (Z.of_nat f + 1) in X by lia. rewrite Z.pow_add_r in X by lia. lia. }
    assert (F' : (1 <= f)%nat) by (destruct f; [cbn in Q'; lia|lia]).
    destruct (IH (x / r) (digit (x mod r) :: acc) ltac:(lia) F') as (s & S1 & (S2 & S3 & S4) & S5 & S6).
    exists (s ++ [digit (x mod r)]). rewrite S1, <- app_assoc. split; [reflexivity|]. split; [|split].
    + split; [destruct s; discriminate|]. split.
      * apply Forall_app. split; [exact S3|]. constructor; [|constructor]. rewrite W. unfold is_digit. lia.
      * unfold value in *. rewrite value_app, S4, W. lia.
    + intros H. destruct s as [|c s]; [now destruct S2|]. cbn [hd app] in H. specialize (S5 H). injection S5 as -> ->.
      cbn in S4. lia.
    + rewrite app_length. cbn. lia.
Qed.

Lemma show_meaning : forall r x, 1 < r <= 10 -> 0 <= x < 2 ^ 128 -> numeral r (show r x) x /\ canonical (show r x).
Proof.
  intros r x R X. assert (P : 2 ^ 128 <= r ^ 128) by (apply Z.pow_le_mono_l; lia).
  destruct (digits_meaning r R 128 x [] ltac:(change (Z.of_nat 128) with 128; lia) ltac:(lia)) as (s & S1 & S2 & S3 & _).
  unfold show. rewrite S1, app_nil_r. split; assumption.
Qed.

Lemma value_zeros : forall r n s, value r (repeat 48 n ++ s) = value r s.
Proof. intros r n s. induction n as [|n IH]; [reflexivity|]. cbn [repeat app]. rewrite value_cons, IH. lia. Qed.

Lemma numeral_length : forall r s n k, 1 < r -> numeral r s n -> canonical s -> n < r ^ Z.of_nat k -> (1 <= k)%nat ->
  (length s <= k)%nat.
Proof.
  intros r s n k R (N1 & N2 & N3) C B K. destruct s as [|c s]; [cbn; lia|].
  destruct (Z.eq_dec c 48) as [->|D].
  - rewrite (C Logic.eq_refl). cbn. lia.
  - inversion N2 as [|? ? Dc F]; subst. rewrite value_cons in B.
    pose proof (value_range r s R F) as V. unfold is_digit in Dc. cbn [length].
    destruct (le_lt_dec (S (length s)) k) as [|L]; [assumption|].
    assert (P : r ^ Z.of_nat k <= r ^ Z.of_nat (length s)) by (apply Z.pow_le_mono_r; lia). nia.
Qed.

(** ** an instruction is printed as its 32 bits, the highest first *)
Lemma instruction_numeral : forall w, 0 <= w < 2 ^ 32 ->
  numeral 2 (display_instruction w) w /\ length (display_instruction w) = 32%nat.
Proof.
  intros w W. destruct (show_meaning 2 w ltac:(lia) ltac:(lia)) as [N C].
  pose proof (numeral_length 2 _ w 32 ltac:(lia) N C ltac:(change (Z.of_nat 32) with 32; lia) ltac:(lia)) as L.
  destruct N as (N1 & N2 & N3). unfold display_instruction, pad. split.
  - split; [|split].
    + intros E. apply app_eq_nil in E. tauto.
    + apply Forall_app. split; [|exact N2]. apply Forall_forall. intros c I. apply repeat_spec in I. subst c. unfold is_digit. lia.
    + now rewrite value_zeros.
  - rewrite app_length, repeat_length. lia.
Qed.

Lemma msb_value : forall n w, 0 <= w < 2 ^ Z.of_nat n ->
  value 2 (map (fun i => if Z.testbit w (Z.of_nat n - 1 - Z.of_nat i) then 49 else 48) (seq 0 n)) = w.
Proof.
  induction n as [|n IH]; intros w W; [cbn in *; lia|].
  rewrite seq_S, map_app. unfold value. cbn [map]. rewrite value_app. fold (value 2 (map (fun i => if Z.testbit w (Z.of_nat (S n) - 1 - Z.of_nat i) then 49 else 48) (seq 0 n))).
  rewrite (map_ext_in _ (fun i => if Z.testbit (w / 2) (Z.of_nat n - 1 - Z.of_nat i) then 49 else 48)).
  - rewrite IH.
    + cbn [plus]. replace (Z.of_nat (S n) - 1 - Z.of_nat n) with 0 by lia.
      pose proof (Z.div_mod w 2 ltac:(lia)) as D. rewrite <- Z.bit0_mod in D. destruct (Z.testbit w 0); cbn [Z.b2z] in D; lia.
    + replace (Z.of_nat (S n)) with (Z.of_nat n + 1) in W by lia. rewrite Z.pow_add_r in W by lia.
      split; [apply Z.div_pos; lia|apply Z.div_lt_upper_bound; lia].
  - intros i I. apply in_seq in I.
    replace (Z.of_nat (S n) - 1 - Z.of_nat i) with (Z.succ (Z.of_nat n - 1 - Z.of_nat i)) by lia.
    now rewrite <- Z.div2_div, Z.div2_spec, Z.shiftr_spec by lia.
Qed.

Theorem C107_bits : forall w, 0 <= w < 2 ^ 32 -> display_instruction w = bits_msb w.
Proof.
  intros w W. destruct (instruction_numeral w W) as [(_ & N2 & N3) L].
  apply (value_inj 2); try assumption; try lia.
  - apply Forall_forall. intros c I. unfold bits_msb in I. apply in_map_iff in I. destruct I as (i & <- & _).
    unfold is_digit. destruct (Z.testbit w (31 - Z.of_nat i)); lia.
  - rewrite N3. symmetry. apply (msb_value 32 w). exact W.
Qed.
Print Assumptions C107_bits.

(** the printed text determines the instruction *)
Theorem C107_instruction : forall w v, 0 <= w < 2 ^ 32 -> 0 <= v < 2 ^ 32 ->
  value 2 (display_instruction w) = w /\ length (display_instruction w) = 32%nat /\
  (display_instruction w = display_instruction v -> w = v).
Proof.
  intros w v W V. destruct (instruction_numeral w W) as [(_ & _ & N) L].
  destruct (instruction_numeral v V) as [(_ & _ & N') _].
  split; [exact N|]. split; [exact L|]. intros E. now rewrite <- N, E.
Qed.
Print Assumptions C107_instruction.

(** ** a decimal is canonical, and reading it gives the number back *)
Theorem C107_decimal : forall n, 0 <= n < 2 ^ 128 ->
  numeral 10 (display_number n) n /\ canonical (display_number n).
Proof. intros n N. apply show_meaning; [lia|exact N]. Qed.
Print Assumptions C107_decimal.

Lemma parse_value : forall s v, Forall (is_digit 10) s -> 0 <= v ->
  fold_left (fun v c => v * 10 + (c - 48)) s v < 2 ^ 64 ->
  fold_left digit_step s (Some v) = Some (fold_left (fun v c => v * 10 + (c - 48)) s v).
Proof.
  induction s as [|c s IH]; intros v F V B; [reflexivity|].
  inversion F as [|? ? D F']; subst. unfold is_digit in D. cbn [fold_left] in *.
  assert (M : v * 10 + (c - 48) <= fold_left (fun v c => v * 10 + (c - 48)) s (v * 10 + (c - 48))).
  { rewrite fold_shift. pose proof (value_range 10 s ltac:(lia) F').
    assert (1 <= 10 ^ Z.of_nat (length s)) by (apply (Z.pow_le_mono_r 10 0); lia). nia. }
  replace (digit_step (Some v) c) with (Some (v * 10 + (c - 48))).
  - apply IH; [assumption|lia|assumption].
  - unfold digit_step.
    replace (10 * v <? 2 ^ 64) with true by (symmetry; apply Z.ltb_lt; lia).
    replace ((48 <=? c) && (c <=? 57)) with true by (symmetry; apply andb_true_intro; split; apply Z.leb_le; lia).
    replace (10 * v + (c - 48) <? 2 ^ 64) with true by (symmetry; apply Z.ltb_lt; lia).
    f_equal. lia.
Qed.

(** every setting written in decimal is the one the host programs use: [usize::from_str] of what `{}` prints *)
Theorem C107_setting : forall n default, 0 <= n < 2 ^ 64 ->
  parse_usize (display_number n) = Some n /\ number_of default (Some (display_number n)) = n.
Proof.
  intros n default N. destruct (C107_decimal n ltac:(lia)) as ((N1 & N2 & N3) & _).
  assert (P : parse_usize (display_number n) = Some n).
  { assert (D : parse_digits (display_number n) = Some n).
    { unfold parse_digits. rewrite (parse_value _ 0); [|assumption|lia|unfold value in N3; rewrite N3; lia].
      now fold (value 10 (display_number n)); rewrite N3. }
    unfold parse_usize. destruct (display_number n) as [|c [|d s]]; [now destruct N1| |].
    - inversion N2 as [|? ? A _]; subst. unfold is_digit in A.
      destruct (Z.eqb_spec c 43); [lia|]. destruct (Z.eqb_spec c 45); [lia|]. exact D.
    - inversion N2 as [|? ? A _]; subst. unfold is_digit in A. destruct (Z.eqb_spec c 43); [lia|]. exact D. }
  split; [exact P|]. unfold number_of. now rewrite P.
Qed.
Print Assumptions C107_setting.

(** ** the name of a register: `r0` to `r31`, all different *)
Theorem C107_register : forall v w, 0 <= v -> 0 <= w ->
  match register_index v with
  | None => 32 <= v
  | Some r => r = v /\ v < 32 /\ hd 0 (display_register r) = 114 /\ numeral 10 (tl (display_register r)) v /\
      (length (display_register r) <= 3)%nat /\ (w < 32 -> display_register r = display_register w -> v = w)
  end.
Proof.
  intros v w V W. unfold register_index. destruct (Z.ltb_spec v 32) as [L|L]; [|lia].
  destruct (C107_decimal v ltac:(lia)) as [N C].
  split; [reflexivity|]. split; [exact L|]. split; [reflexivity|]. split; [exact N|]. split.
  - cbn [display_register length]. pose proof (numeral_length 10 _ v 2 ltac:(lia) N C ltac:(cbn; lia) ltac:(lia)) as B.
    unfold display_number in B. lia.
  - intros B E. destruct (C107_decimal w ltac:(lia)) as [(_ & _ & N') _]. destruct N as (_ & _ & N).
    unfold display_register in E. apply (f_equal (@tl Z)) in E. cbn [tl] in E. unfold display_number in *. congruence.
Qed.
Print Assumptions C107_register.

(** `{:30b}` keeps the spaces out of the numeral, and gives 30 bytes only to words below 2^30 *)
Theorem C107_wide : forall w, 0 <= w < 2 ^ 32 ->
  exists k s, display_wide w = repeat 32 k ++ s /\ numeral 2 s w /\ canonical s /\
    (length (display_wide w) = 30%nat <-> w < 2 ^ 30).
Proof.
  intros w W. destruct (show_meaning 2 w ltac:(lia) ltac:(lia)) as [N C].
  exists (30 - length (show 2 w))%nat, (show 2 w). split; [reflexivity|]. split; [exact N|]. split; [exact C|].
  unfold display_wide, pad. rewrite app_length, repeat_length. split; intros H.
  - assert (L : (length (show 2 w) <= 30)%nat) by lia. destruct N as (_ & N2 & N3).
    pose proof (value_range 2 _ ltac:(lia) N2) as B. rewrite N3 in B.
    assert (2 ^ Z.of_nat (length (show 2 w)) <= 2 ^ 30) by (apply Z.pow_le_mono_r; lia). lia.
  - pose proof (numeral_length 2 _ w 30 ltac:(lia) N C ltac:(change (Z.of_nat 30) with 30; lia) ltac:(lia)). lia.
Qed.
Print Assumptions C107_wide.

(** addi x1, x0, 5 = 0x00500093; register 31; the setting 9000 *)
Example C107_case :
  display_instruction 0x00500093 = [48;48;48;48;48;48;48;48;48;49;48;49;48;48;48;48;48;48;48;48;48;48;48;48;49;48;48;49;48;48;49;49] /\
  display_register 31 = [114; 51; 49] /\ display_number 9000 = [57; 48; 48; 48] /\ parse_usize [57; 48; 48; 48] = Some 9000 /\
  length (display_wide (2 ^ 31)) = 32%nat /\ register_index 32 = None.
Proof. repeat split. Qed.
