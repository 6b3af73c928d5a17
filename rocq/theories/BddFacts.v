(** * Soundness of the circuit checker *)
Require Import ZArith NArith List Bool Lia.
Require Import Verif.Word Verif.Bdd Verif.BddCheck.
Import ListNotations.
Open Scope N_scope.

(** ** evaluation succeeds on structurally sound circuits *)
Section Levels.
Variable inp : N -> option bool.
Variable f : N -> bool.
Variable nin : N.
Hypothesis inp_f : forall v, v < nin -> inp v = Some (f v).

Definition next_vals (g : N -> bool) (lv : list node) (j : N) : bool :=
  match nth_error lv (N.to_nat j) with
  | Some (C v h l) => if f v then g h else g l
  | Some P => g j
  | _ => false
  end.
Fixpoint fsem (g : N -> bool) (ls : list (list node)) : N -> bool :=
  match ls with [] => g | lv :: r => fsem (next_vals g lv) r end.
Definition g0 (j : N) : bool := j =? 1.
Fixpoint bsem (ls : list (list node)) : N -> bool :=
  match ls with [] => g0 | lv :: r => next_vals (bsem r) lv end.

Lemma fsem_app g ls r : fsem g (ls ++ r) = fsem (fsem g ls) r.
Proof. revert g. induction ls; intros; cbn; auto. Qed.
Lemma bsem_rev ls : bsem (rev ls) = fsem g0 ls.
Proof.
  induction ls using rev_ind; [reflexivity|].
  rewrite rev_app_distr, fsem_app. cbn. now rewrite IHls.
Qed.

Definition fits (prev : list (option bool)) (pw : list bool) (g : N -> bool) : Prop :=
  forall j, written pw j = true -> slot prev j = Some (g j).

Lemma level_ok prev pw g lv :
  fits prev pw g -> forall pre, let j := length pre in
  sound_level nin pw j lv = true ->
  exists xs, eval_level inp prev j lv = Some xs /\ length xs = length lv /\
    forall i, written (map writes lv) (N.of_nat i) = true ->
      nth_error xs i = Some (Some (next_vals g (pre ++ lv) (N.of_nat (j + i)))).
Proof.
  intros F. induction lv as [|n lv IH]; intros pre j H.
  - exists []. cbn. repeat split; auto. intros i. unfold written.
    rewrite Nnat.Nat2N.id. now destruct i.
  - cbn [sound_level] in H. apply andb_true_iff in H as [H1 H2].
    specialize (IH (pre ++ [n])). cbn zeta in IH. rewrite app_length in IH. cbn [length] in IH.
    replace (length pre + 1)%nat with (S j) in IH by (unfold j; lia).
    destruct (IH H2) as (xs & E1 & E2 & E3). rewrite <- app_assoc in E3. cbn in E3.
    assert (N0 : nth_error (pre ++ n :: lv) j = Some n).
    { unfold j. rewrite nth_error_app2 by lia. now rewrite Nat.sub_diag. }
    assert (Hx : exists x, eval_node inp prev j n = Some x /\
              (writes n = true -> x = Some (next_vals g (pre ++ n :: lv) (N.of_nat j)))).
    { unfold next_vals. rewrite Nnat.Nat2N.id, N0. destruct n as [s h l| |]; cbn.
      - apply andb_true_iff in H1 as [H1 H3]. apply andb_true_iff in H1 as [H0 H1].
        rewrite inp_f by now apply N.ltb_lt. rewrite (F _ H1), (F _ H3).
        eexists; split; [reflexivity|]. auto.
      - rewrite (F _ H1). eexists; split; [reflexivity|]. auto.
      - eexists; split; [reflexivity|]. discriminate. }
    destruct Hx as (x & E4 & E5). exists (x :: xs). cbn [eval_level]. rewrite E4, E1.
    split; [reflexivity|]. split; [cbn; lia|].
    intros [|i] W.
    + cbn. rewrite Nat.add_0_r. f_equal. apply E5. exact W.
    + cbn [nth_error]. rewrite E3.
      * do 2 f_equal. f_equal. lia.
      * unfold written in *. rewrite Nnat.Nat2N.id in *. exact W.
Qed.

Lemma levels_ok ls : forall prev pw g,
  fits prev pw g -> sound_levels nin pw ls = true ->
  exists out, eval_levels inp prev ls = Some out /\ slot out 0 = Some (fsem g ls 0).
Proof.
  induction ls as [|lv r IH]; intros prev pw g F H.
  - exists prev. split; [reflexivity|]. now apply F.
  - cbn in H. apply andb_true_iff in H as [H1 H2].
    destruct (level_ok prev pw g lv F [] H1) as (xs & E1 & E2 & E3).
    cbn in E1, E3. cbn [eval_levels fsem]. rewrite E1. apply (IH xs (map writes lv) (next_vals g lv)); [|exact H2].
    intros j W. unfold slot. rewrite <- (Nnat.N2Nat.id j) in W.
    rewrite (E3 _ W). now rewrite Nnat.N2Nat.id.
Qed.

Lemma first_fits w : fits (first_level (S w)) (firstn (S w) (true :: true :: repeat false (S w))) g0.
Proof.
  intros j. unfold written, slot, first_level, g0. cbn [firstn].
  destruct (N.to_nat j) as [|[|n]] eqn:E.
  - assert (j = 0) by lia. subst. reflexivity.
  - assert (j = 1) by lia. subst. destruct w; [cbn; discriminate|]. reflexivity.
  - intros H. exfalso. revert H.
    assert (G : forall m k q, nth k (firstn m (repeat false q)) false = false).
    { intros m k q. revert m k. induction q; intros [|m] [|k]; cbn; auto. }
    destruct w; [destruct n; discriminate|]. cbn [firstn nth]. rewrite G. discriminate.
Qed.

Lemma eval_bit_ok w nodes : sound_bit nin (BC (S w) nodes) = true ->
  eval_bit inp (BC (S w) nodes) = Some (bsem (rev (levels (S w) nodes)) 0).
Proof.
  unfold sound_bit. intros H. apply andb_true_iff in H as [_ H].
  destruct (levels_ok _ _ _ _ (first_fits w) H) as (out & E1 & E2).
  unfold eval_bit. rewrite E1, E2. now rewrite bsem_rev.
Qed.
End Levels.

(** ** ripple addition on integers *)
Lemma mod_succ_bit x k : (0 <= k)%Z ->
  (x mod 2 ^ (k + 1) = x mod 2 ^ k + 2 ^ k * Z.b2z (Z.testbit x k))%Z.
Proof.
  intros. rewrite Z.pow_add_r, Z.rem_mul_r by lia.
  rewrite Z.pow_1_r. do 2 f_equal.
  rewrite Z.testbit_odd, Z.shiftr_div_pow2 by lia. now rewrite Zmod_odd; destruct (Z.odd _).
Qed.

Definition carry (x y z k : Z) : Z := ((x mod 2 ^ k + y mod 2 ^ k + z mod 2 ^ k) / 2 ^ k)%Z.
Definition here (x y z k : Z) : Z :=
  (Z.b2z (Z.testbit x k) + Z.b2z (Z.testbit y k) + Z.b2z (Z.testbit z k))%Z.
Lemma carry_0 x y z : carry x y z 0 = 0%Z.
Proof. unfold carry. cbn. now rewrite !Z.mod_1_r. Qed.
Lemma carry_succ x y z k : (0 <= k)%Z -> carry x y z (k + 1) = ((here x y z k + carry x y z k) / 2)%Z.
Proof.
  intros. unfold carry, here. rewrite !mod_succ_bit by lia.
  rewrite Z.pow_add_r, Z.pow_1_r by lia. rewrite <- Z.div_div by lia. f_equal.
  assert (0 < 2 ^ k)%Z by lia.
  match goal with |- (?a / _ = _)%Z => replace a with
    ((x mod 2^k + y mod 2^k + z mod 2^k) +
     (Z.b2z (Z.testbit x k) + Z.b2z (Z.testbit y k) + Z.b2z (Z.testbit z k)) * 2 ^ k)%Z by ring end.
  rewrite Z.div_add by lia. ring.
Qed.
Lemma sum_bit x y z k : (0 <= k)%Z -> Z.testbit (x + y + z) k = Z.odd (here x y z k + carry x y z k).
Proof.
  intros. rewrite Z.testbit_odd, Z.shiftr_div_pow2 by lia.
  assert (0 < 2 ^ k)%Z by lia.
  assert (E : ((x + y + z) / 2 ^ k = x / 2 ^ k + y / 2 ^ k + z / 2 ^ k + carry x y z k)%Z).
  { unfold carry.
    rewrite (Z.div_mod x (2 ^ k)) at 1 by lia. rewrite (Z.div_mod y (2 ^ k)) at 1 by lia.
    rewrite (Z.div_mod z (2 ^ k)) at 1 by lia.
    match goal with |- (?a / _ = _)%Z => replace a with
     ((x mod 2^k + y mod 2^k + z mod 2^k) + (x/2^k + y/2^k + z/2^k) * 2 ^ k)%Z by ring end.
    rewrite Z.div_add by lia. ring. }
  rewrite E. unfold here.
  assert (O : forall b, Z.odd (Z.b2z b) = b) by (intros []; reflexivity).
  rewrite !Z.odd_add, !O, !Z.testbit_odd, !Z.shiftr_div_pow2 by lia. reflexivity.
Qed.

Lemma pack_testbit bs k : Z.testbit (pack_bits bs) (Z.of_nat k) = nth k bs false.
Proof.
  revert k. induction bs as [|b bs IH]; intros k; cbn [pack_bits fold_right].
  - rewrite Z.testbit_0_l. now destruct k.
  - fold (pack_bits bs). destruct k as [|k].
    + cbn [Z.of_nat nth]. rewrite Z.bit0_odd, Z.odd_add, Z.odd_mul. cbn [Z.odd andb].
      rewrite xorb_false_r. now destruct b.
    + rewrite Nat2Z.inj_succ, <- Z.add_1_r, Z.testbit_odd, Z.shiftr_div_pow2 by lia.
      rewrite Z.pow_add_r, Z.pow_1_r, (Z.mul_comm (2 ^ _)), <- Z.div_div by lia.
      replace ((Z.b2z b + 2 * pack_bits bs) / 2)%Z with (pack_bits bs)
        by (destruct b; cbn [Z.b2z]; rewrite Z.mul_comm, Z.div_add by lia; reflexivity).
      rewrite <- Z.shiftr_div_pow2, <- Z.testbit_odd by lia. apply IH.
Qed.
Lemma pack_range bs : (0 <= pack_bits bs < 2 ^ Z.of_nat (length bs))%Z.
Proof.
  induction bs as [|b bs IH]; [cbn; lia|]. cbn [pack_bits fold_right length]. fold (pack_bits bs).
  rewrite Nat2Z.inj_succ, Z.pow_succ_r by lia. destruct b; cbn [Z.b2z]; lia.
Qed.

(** ** meaning of the checker's states *)
Section States.
Variable f : N -> bool.
Definition opbit (o : N -> option N) (k : N) : bool :=
  match o k with Some v => f v | None => false end.
Fixpoint pos (n : nat) : list N :=
  match n with O => [] | S m => pos m ++ [N.of_nat m] end.
Definition val (o : N -> option N) : Z := pack_bits (map (opbit o) (pos 32)).

Definition total (t : tgt) : Z := (val (va (spec t)) + val (vb (spec t)) + kc (spec t))%Z.
Lemma pos_length n : length (pos n) = n.
Proof. induction n; cbn; auto. rewrite app_length. cbn. lia. Qed.
Lemma pos_nth n k : (k < n)%nat -> nth_error (pos n) k = Some (N.of_nat k).
Proof.
  induction n; [lia|]. intros. cbn. destruct (Nat.eq_dec k n) as [->|].
  - rewrite nth_error_app2 by (rewrite pos_length; lia). now rewrite pos_length, Nat.sub_diag.
  - rewrite nth_error_app1 by (rewrite pos_length; lia). apply IHn. lia.
Qed.
Lemma val_bit o k : k < 32 -> Z.testbit (val o) (Z.of_N k) = opbit o k.
Proof.
  intros. unfold val. rewrite <- (N2Nat.id k) at 1. rewrite nat_N_Z, pack_testbit.
  apply nth_error_nth.
  erewrite map_nth_error; [|apply pos_nth; lia]. now rewrite N2Nat.id.
Qed.
Lemma val_range o : (0 <= val o < 4294967296)%Z.
Proof.
  pose proof (pack_range (map (opbit o) (pos 32))) as H. rewrite map_length, pos_length in H. exact H.
Qed.

Variable i : N.
Hypothesis i32 : i < 32.

Definition sumbit (t : tgt) : bool :=
  match t with
  | TInd => negb (i =? 0) && Z.testbit (total t) (Z.of_N i)
  | _ => Z.testbit (total t) (Z.of_N i)
  end.
Definition sgn32 (x : Z) : Z := if (x <? 2147483648)%Z then x else (x - 4294967296)%Z.
Definition rel (sgn : bool) (k : N) : comparison :=
  let U := val (from 4) in let V := val (from 36) in
  if sgn && (k =? 32) then (sgn32 U ?= sgn32 V)%Z
  else (U mod 2 ^ Z.of_N k ?= V mod 2 ^ Z.of_N k)%Z.
Definition choose (lt eq gt : bool) (c : comparison) : bool :=
  match c with Lt => lt | Eq => eq | Gt => gt end.
Definition goal_bit (g : goal) : bool :=
  match g with
  | GSum t => sumbit t
  | GBranch sgn lt eq gt => sumbit (side (choose lt eq gt (rel sgn 32)))
  end.

Definition knows (o : option bool) (b : bool) : Prop := forall x, o = Some x -> b = x.
Definition ok (g : goal) (T : bool) (s : st) : Prop :=
  match s with
  | Fin b => T = b
  | Cpy t => T = opbit (va (spec t)) i
  | Sum t k c a b sg =>
      k <= i /\ T = Z.testbit (total t) (Z.of_N i) /\
      carry (val (va (spec t))) (val (vb (spec t))) (kc (spec t)) (Z.of_N k) = Z.of_N c /\
      knows a (opbit (va (spec t)) k) /\ knows b (opbit (vb (spec t)) k) /\
      (forall v, vs (spec t) = Some v -> knows sg (f v))
  | Cmp k a =>
      match g with
      | GSum _ => False
      | GBranch sgn lt eq gt =>
          1 <= k <= 32 /\ knows a (f (3 + k)) /\ T = sumbit (side (choose lt eq gt (rel sgn k)))
      end
  end.

Lemma know_a_ok t k a : knows a (opbit (va (spec t)) k) -> knows (know_a t k a) (opbit (va (spec t)) k).
Proof.
  unfold know_a, opbit, knows. destruct (va (spec t) k); intros H x E; auto. congruence.
Qed.
Lemma know_b_ok t k b sg : knows b (opbit (vb (spec t)) k) ->
  (forall v, vs (spec t) = Some v -> knows sg (f v)) ->
  knows (know_b t k b sg) (opbit (vb (spec t)) k).
Proof.
  unfold know_b, opbit, knows. destruct (vb (spec t) k) as [v|]; intros H1 H2 x E; auto.
  - unfold is_var in E. destruct (vs (spec t)) as [u|]; auto.
    destruct (u =? v) eqn:Q; auto. apply N.eqb_eq in Q. subst u. eapply H2; eauto.
  - congruence.
Qed.
Lemma low_high o b : knows o b -> low_of o <= (if b then 1 else 0) <= high_of o.
Proof. unfold knows. destruct o as [x|]; intros H; [rewrite (H _ eq_refl); destruct x|destruct b]; cbn; lia. Qed.

Lemma here_bits t k : k < 32 ->
  here (val (va (spec t))) (val (vb (spec t))) (kc (spec t)) (Z.of_N k) =
  Z.of_N ((if opbit (va (spec t)) k then 1 else 0) + (if opbit (vb (spec t)) k then 1 else 0) + kbit t k).
Proof.
  intros. unfold here, kbit. rewrite !val_bit by lia.
  destruct (opbit (va (spec t)) k), (opbit (vb (spec t)) k), (Z.testbit (kc (spec t)) (Z.of_N k)); reflexivity.
Qed.

(** positions from [tl] on repeat the sign input and have no constant part. *)
Lemma tail_spec t k : tl (spec t) <= k -> k < 32 ->
  exists v, vs (spec t) = Some v /\ vb (spec t) k = Some v /\ kbit t k = 0.
Proof.
  intros H1 H2. destruct t; cbn in H1; try lia;
  (exists 119; repeat split; [|unfold kbit; cbn; now rewrite Z.testbit_0_l]).
  all: cbn; unfold sxt; destruct (N.ltb_spec k 20); [|reflexivity]; f_equal; lia.
Qed.
Lemma knows_none b : knows None b.
Proof. intros x. discriminate. Qed.

Lemma carry_tail t k v : tl (spec t) <= k -> vs (spec t) = Some v ->
  carry (val (va (spec t))) (val (vb (spec t))) (kc (spec t)) (Z.of_N k) = Z.b2z (f v) ->
  forall d, k + d <= 32 ->
  carry (val (va (spec t))) (val (vb (spec t))) (kc (spec t)) (Z.of_N (k + d)) = Z.b2z (f v).
Proof.
  intros H1 H2 H3 d. induction d as [|d IH] using N.peano_ind; intros H4.
  - now rewrite N.add_0_r.
  - specialize (IH ltac:(lia)).
    replace (Z.of_N (k + N.succ d)) with (Z.of_N (k + d) + 1)%Z by lia.
    rewrite carry_succ, IH, here_bits by lia.
    destruct (tail_spec t (k + d)) as (v' & E1 & E2 & E3); try lia.
    rewrite H2 in E1. injection E1 as <-. rewrite E3. unfold opbit at 2. rewrite E2.
    destruct (opbit (va (spec t)) (k + d)), (f v); reflexivity.
Qed.

Lemma settle_ok g T t k c a b sg : ok g T (Sum t k c a b sg) ->
  match settle i t k c a b sg with
  | inl s => ok g T s
  | inr c' => ok g T (Sum t (k + 1) c' None None sg)
  end.
Proof.
  intros O. pose proof O as (H1 & H2 & H3 & H4 & H5 & H6).
  pose proof (know_a_ok _ _ _ H4) as KA. pose proof (know_b_ok _ _ _ _ H5 H6) as KB.
  pose proof (low_high _ _ KA) as LA. pose proof (low_high _ _ KB) as LB.
  unfold settle. set (A := know_a t k a) in *. set (B := know_b t k b sg) in *.
  set (xa := if opbit (va (spec t)) k then 1 else 0) in *.
  set (xb := if opbit (vb (spec t)) k then 1 else 0) in *.
  assert (HH : here (val (va (spec t))) (val (vb (spec t))) (kc (spec t)) (Z.of_N k)
               = Z.of_N (xa + xb + kbit t k)) by (unfold xa, xb; apply here_bits; lia).
  destruct (N.eqb_spec k i) as [->|Ki].
  - destruct (N.eqb_spec (low_of A + low_of B + kbit t i + c) (high_of A + high_of B + kbit t i + c)) as [E|E]; auto.
    cbn [ok]. rewrite H2. unfold total. rewrite sum_bit, HH, H3 by lia.
    rewrite <- N2Z.inj_add. replace (xa + xb + kbit t i + c) with (low_of A + low_of B + kbit t i + c) by lia.
    clear. destruct (low_of A + low_of B + kbit t i + c) as [|[]]; reflexivity.
  - destruct (N.eqb_spec ((low_of A + low_of B + kbit t k + c) / 2) ((high_of A + high_of B + kbit t k + c) / 2)) as [E|E].
    + cbn [ok]. split; [lia|]. split; [exact H2|]. split; [|repeat split; auto using knows_none].
      rewrite N2Z.inj_add. cbn [Z.of_N]. rewrite carry_succ, HH, H3 by lia.
      rewrite <- N2Z.inj_add. change 2%Z with (Z.of_N 2). rewrite <- N2Z.inj_div. f_equal.
      assert (Lo := N.div_le_mono (low_of A + low_of B + kbit t k + c) (xa + xb + kbit t k + c) 2 ltac:(lia) ltac:(lia)).
      assert (Hi := N.div_le_mono (xa + xb + kbit t k + c) (high_of A + high_of B + kbit t k + c) 2 ltac:(lia) ltac:(lia)).
      lia.
    + destruct (tl (spec t) <=? k) eqn:T1; cbn [andb]; auto.
      destruct (low_of A + low_of B + kbit t k + c + 1 =? high_of A + high_of B + kbit t k + c) eqn:T2; cbn [andb]; auto.
      destruct (low_of A + low_of B + kbit t k + c =? 1) eqn:T3; cbn [andb]; auto.
      destruct A as [a'|] eqn:EA; auto.
      apply N.leb_le in T1. apply N.eqb_eq in T2, T3.
      destruct (tail_spec t k T1 ltac:(lia)) as (v & V1 & V2 & V3).
      assert (BN : B = None).
      { destruct B as [[]|]; auto; destruct a'; cbn [low_of high_of] in T2; lia. }
      rewrite BN, V3 in T3. cbn [low_of] in T3.
      assert (XA : xa = low_of (Some a')).
      { unfold xa. rewrite (KA _ eq_refl). destruct a'; reflexivity. }
      assert (XB : opbit (vb (spec t)) k = f v) by (unfold opbit; now rewrite V2).
      assert (CT : carry (val (va (spec t))) (val (vb (spec t))) (kc (spec t)) (Z.of_N (k + 1)) = Z.b2z (f v)).
      { rewrite N2Z.inj_add. cbn [Z.of_N]. rewrite carry_succ, HH, H3 by lia.
        rewrite <- N2Z.inj_add. replace (xa + xb + kbit t k + c) with (1 + xb)
          by (destruct a'; cbn [low_of] in *; lia).
        unfold xb. rewrite XB. destruct (f v); reflexivity. }
      cbn [ok]. rewrite H2. unfold total. rewrite sum_bit by lia.
      rewrite here_bits by lia. replace i with ((k + 1) + (i - (k + 1))) at 4 by lia.
      rewrite (carry_tail t (k + 1) v) by (try lia; auto).
      destruct (tail_spec t i) as (v' & W1 & W2 & W3); try lia.
      rewrite V1 in W1. injection W1 as <-. unfold opbit at 2. rewrite W2, W3.
      destruct (opbit (va (spec t)) i), (f v); reflexivity.
Qed.

Lemma norm_ok g T fuel : forall t k c a b sg, ok g T (Sum t k c a b sg) -> ok g T (norm fuel i t k c a b sg).
Proof.
  induction fuel as [|n IH]; intros; cbn [norm]; auto.
  pose proof (settle_ok _ _ _ _ _ _ _ _ H) as S. destruct (settle i t k c a b sg); auto.
Qed.

Lemma start_sum_ok g T t : T = sumbit t -> ok g T (start_sum i t).
Proof.
  intros ->.
  assert (O : ok g (Z.testbit (total t) (Z.of_N i)) (Sum t 0 0 None None None)).
  { cbn [ok]. split; [lia|]. split; [reflexivity|]. split; [apply carry_0|].
    repeat split; intros; apply knows_none. }
  unfold start_sum, sumbit. destruct t; try (now apply norm_ok).
  destruct (i =? 0); [reflexivity|]. now apply norm_ok.
Qed.
Lemma start_ok g T : T = goal_bit g -> ok g T (start i g).
Proof.
  destruct g; cbn [start goal_bit]; intros; [now apply start_sum_ok|].
  cbn [ok]. split; [lia|]. split; [apply knows_none|assumption].
Qed.

Lemma is_var_eq o v : is_var o v = true -> o = Some v.
Proof. destruct o; cbn; [|discriminate]. intros H. apply N.eqb_eq in H. now subst. Qed.

Lemma mod_split x k : 1 <= k -> (x mod 2 ^ Z.of_N k =
  x mod 2 ^ Z.of_N (k - 1) + 2 ^ Z.of_N (k - 1) * Z.b2z (Z.testbit x (Z.of_N (k - 1))))%Z.
Proof.
  intros. replace (Z.of_N k) with (Z.of_N (k - 1) + 1)%Z by lia. apply mod_succ_bit. lia.
Qed.

Lemma rel_same sgn k : 1 <= k <= 32 -> f (3 + k) = f (35 + k) -> rel sgn k = rel sgn (k - 1).
Proof.
  intros K E. unfold rel. cbn zeta. set (U := val (from 4)). set (V := val (from 36)).
  assert (BU : Z.testbit U (Z.of_N (k - 1)) = f (3 + k)).
  { unfold U. rewrite val_bit by lia. unfold opbit, from. f_equal. lia. }
  assert (BV : Z.testbit V (Z.of_N (k - 1)) = f (3 + k)).
  { rewrite E. unfold V. rewrite val_bit by lia. unfold opbit, from. f_equal. lia. }
  replace (k - 1 =? 32) with false by (symmetry; apply N.eqb_neq; lia). rewrite andb_false_r.
  assert (G : (U mod 2 ^ Z.of_N k ?= V mod 2 ^ Z.of_N k)%Z =
              (U mod 2 ^ Z.of_N (k - 1) ?= V mod 2 ^ Z.of_N (k - 1))%Z).
  { rewrite !(mod_split _ k), BU, BV by lia. rewrite !(Z.add_comm _ (_ * _)).
    now rewrite Z.add_compare_mono_l. }
  destruct (sgn && (k =? 32)) eqn:S; [|exact G].
  apply andb_true_iff in S as [_ S]. apply N.eqb_eq in S. subst k. rewrite <- G.
  pose proof (val_range (from 4)) as RU. pose proof (val_range (from 36)) as RV.
  fold U in RU. fold V in RV.
  change (2 ^ Z.of_N 32)%Z with 4294967296%Z. rewrite !Z.mod_small by lia.
  assert (Q : forall X, (0 <= X < 4294967296)%Z -> Z.testbit X (Z.of_N (32 - 1)) = negb (X <? 2147483648)%Z).
  { intros X R. rewrite Z.testbit_odd, Z.shiftr_div_pow2 by lia. change (2 ^ Z.of_N (32 - 1))%Z with 2147483648%Z.
    destruct (Z.ltb_spec X 2147483648).
    - rewrite Z.div_small by lia. reflexivity.
    - replace (X / 2147483648)%Z with 1%Z; [reflexivity|].
      apply Z.div_unique with (r := (X - 2147483648)%Z); lia. }
  rewrite Q in BU, BV by lia. unfold sgn32.
  destruct (U <? 2147483648)%Z, (V <? 2147483648)%Z; cbn in BU, BV; try congruence.
  rewrite <- !Z.add_opp_r, !(Z.add_comm _ (-4294967296)). now rewrite Z.add_compare_mono_l.
Qed.

Lemma rel_0 sgn : rel sgn 0 = Eq.
Proof. unfold rel. cbn. rewrite andb_false_r. now rewrite !Z.mod_1_r. Qed.

Lemma rel_diff sgn k : 1 <= k <= 32 -> f (3 + k) <> f (35 + k) ->
  rel sgn k = if xorb (f (35 + k)) (sgn && (k =? 32)) then Lt else Gt.
Proof.
  intros K E. unfold rel. cbn zeta. set (U := val (from 4)). set (V := val (from 36)).
  assert (BU : Z.testbit U (Z.of_N (k - 1)) = f (3 + k)).
  { unfold U. rewrite val_bit by lia. unfold opbit, from. f_equal. lia. }
  assert (BV : Z.testbit V (Z.of_N (k - 1)) = f (35 + k)).
  { unfold V. rewrite val_bit by lia. unfold opbit, from. f_equal. lia. }
  destruct (sgn && (k =? 32)) eqn:S.
  - apply andb_true_iff in S as [_ S]. apply N.eqb_eq in S. subst k.
    pose proof (val_range (from 4)) as RU. pose proof (val_range (from 36)) as RV.
    fold U in RU. fold V in RV.
    assert (Q : forall X, (0 <= X < 4294967296)%Z -> Z.testbit X (Z.of_N (32 - 1)) = negb (X <? 2147483648)%Z).
    { intros X R. rewrite Z.testbit_odd, Z.shiftr_div_pow2 by lia. change (2 ^ Z.of_N (32 - 1))%Z with 2147483648%Z.
      destruct (Z.ltb_spec X 2147483648).
      - rewrite Z.div_small by lia. reflexivity.
      - replace (X / 2147483648)%Z with 1%Z; [reflexivity|].
        apply Z.div_unique with (r := (X - 2147483648)%Z); lia. }
    rewrite Q in BU, BV by lia. unfold sgn32. rewrite <- BV. rewrite <- BU, <- BV in E.
    clearbody U V.
    destruct (Z.ltb_spec U 2147483648), (Z.ltb_spec V 2147483648); cbn [negb xorb] in E |- *; try congruence;
      [apply Z.compare_gt_iff|apply Z.compare_lt_iff]; lia.
  - rewrite xorb_false_r, !(mod_split _ k), BU, BV by lia.
    set (P := (2 ^ Z.of_N (k - 1))%Z). assert (0 < P)%Z by (unfold P; lia).
    pose proof (Z.mod_pos_bound U P ltac:(lia)). pose proof (Z.mod_pos_bound V P ltac:(lia)).
    destruct (f (3 + k)), (f (35 + k)); cbn [Z.b2z]; try congruence;
      [apply Z.compare_gt_iff|apply Z.compare_lt_iff]; lia.
Qed.

Lemma learn_ok g T s v b : ok g T s -> f v = b ->
  exists s', learn i g s v b = Some s' /\ ok g T s'.
Proof.
  intros O F. destruct s as [t k c a bb sg|t|k a|d]; cbn [learn].
  - pose proof O as (H1 & H2 & H3 & H4 & H5 & H6).
    destruct (is_var (va (spec t) k) v) eqn:VA.
    { apply is_var_eq in VA.
      assert (Q : opbit (va (spec t)) k = b) by (unfold opbit; now rewrite VA).
      destruct a as [a'|].
      - assert (a' = b) as -> by (rewrite <- Q; symmetry; exact (H4 _ eq_refl)). rewrite eqb_reflx. eauto.
      - eexists; split; [reflexivity|]. apply norm_ok. cbn [ok]. repeat split; auto.
        intros x E. congruence. }
    destruct (is_var (vs (spec t)) v) eqn:VS.
    { apply is_var_eq in VS. destruct sg as [g'|].
      - assert (g' = b) as -> by (rewrite <- F; symmetry; exact (H6 _ VS _ eq_refl)). rewrite eqb_reflx. eauto.
      - eexists; split; [reflexivity|]. apply norm_ok. cbn [ok]. repeat split; auto.
        intros u E x X. congruence. }
    destruct (is_var (vb (spec t) k) v) eqn:VB; [|eauto].
    apply is_var_eq in VB.
    assert (Q : opbit (vb (spec t)) k = b) by (unfold opbit; now rewrite VB).
    destruct bb as [b'|].
    + assert (b' = b) as -> by (rewrite <- Q; symmetry; exact (H5 _ eq_refl)). rewrite eqb_reflx. eauto.
    + eexists; split; [reflexivity|]. apply norm_ok. cbn [ok]. repeat split; auto.
      intros x E. congruence.
  - destruct (is_var (va (spec t) i) v) eqn:VA; [|eauto].
    apply is_var_eq in VA. eexists; split; [reflexivity|]. cbn [ok] in *.
    rewrite O. unfold opbit. now rewrite VA.
  - destruct g as [t|sgn lt eq gt]; [destruct O|]. cbn [ok] in O. destruct O as (K & A & E).
    destruct (N.eqb_spec v (3 + k)) as [->|].
    { destruct a as [a'|].
      - assert (a' = b) as -> by (rewrite <- F; symmetry; exact (A _ eq_refl)). rewrite eqb_reflx. eexists; split; [reflexivity|]. cbn [ok]. auto.
      - eexists; split; [reflexivity|]. cbn [ok]. repeat split; try lia; auto. intros x X. congruence. }
    destruct (N.eqb_spec v (35 + k)) as [->|].
    2: { eexists; split; [reflexivity|]. cbn [ok]. auto. }
    destruct a as [a'|].
    2: { eexists; split; [reflexivity|]. cbn [ok]. auto. }
    pose proof (A _ eq_refl) as A'. destruct (Bool.eqb a' b) eqn:EB.
    + apply eqb_prop in EB. subst a'. rewrite rel_same in E by (try lia; congruence).
      destruct (N.eqb_spec k 1) as [->|].
      * eexists; split; [reflexivity|]. apply start_sum_ok.
        change (1 - 1) with 0 in E. rewrite rel_0 in E. exact E.
      * eexists; split; [reflexivity|]. cbn [ok]. split; [lia|]. split; [apply knows_none|exact E].
    + apply eqb_false_iff in EB. rewrite rel_diff in E by (try lia; congruence).
      eexists; split; [reflexivity|]. apply start_sum_ok. rewrite E, F.
      now destruct (xorb b (sgn && (k =? 32))).
  - eauto.
Qed.

Lemma lookup_in l v b : lookup l v = Some b -> In (v, b) l.
Proof.
  induction l as [|[x y] r IH]; cbn; [discriminate|].
  destruct (N.eqb_spec x v) as [->|]; intros; [left; congruence|auto].
Qed.

Section Explore.
Variable x : ctx.
Variable g : goal.
Hypothesis known_ok : forall v b, In (v, b) (known x) -> f v = b.
Let T := goal_bit g.

Lemma step_ok s v : ok g T s -> exists s', step x i g s v (f v) = Some s' /\ ok g T s'.
Proof.
  intros O. unfold step.
  destruct (lookup (known x) v) as [b|] eqn:L.
  - rewrite (known_ok _ _ (lookup_in _ _ _ L)), eqb_reflx. cbn [negb].
    destruct (_ && _); [|rewrite <- (known_ok _ _ (lookup_in _ _ _ L)); now apply learn_ok].
    eexists; split; [reflexivity|]. now apply start_ok.
  - destruct (_ && _); [|now apply learn_ok].
    eexists; split; [reflexivity|]. now apply start_ok.
Qed.

Lemma steqb_eq s s' : steqb s s' = true -> s = s'.
Proof.
  assert (TT : forall t t', tnum t =? tnum t' = true -> t = t').
  { intros [] [] H; try reflexivity; discriminate. }
  assert (OO : forall a b, oeqb a b = true -> a = b).
  { intros [[]|] [[]|] H; try reflexivity; discriminate. }
  destruct s, s'; cbn [steqb]; try discriminate; intros H;
    repeat (apply andb_true_iff in H; destruct H as [H ?]);
    repeat match goal with
    | H : (tnum _ =? tnum _) = true |- _ => apply TT in H
    | H : (_ =? _) = true |- _ => apply N.eqb_eq in H
    | H : oeqb _ _ = true |- _ => apply OO in H
    | H : Bool.eqb _ _ = true |- _ => apply eqb_prop in H
    end; subst; auto.
Qed.

(** a reachable slot whose state holds of the input. *)
Definition has (l : list (N * st)) (j : N) : Prop := exists s, In (j, s) l /\ ok g T s.
Lemma has_add j s l : ok g T s -> has (add (j, s) l) j.
Proof.
  intros O. unfold add. destruct (existsb _ l) eqn:X.
  - apply existsb_exists in X as ([j' s'] & I & E). cbn in E.
    apply andb_true_iff in E as [E1 E2]. apply N.eqb_eq in E1. subst j'.
    apply steqb_eq in E2. subst s'. exists s. auto.
  - exists s. split; [left; reflexivity|assumption].
Qed.
Lemma add_mono p l j : has l j -> has (add p l) j.
Proof. intros (s & I & O). exists s. split; auto. unfold add. destruct (existsb _ l); [assumption|now right]. Qed.
Lemma addo_mono h o l j : has l j -> has (addo h o l) j.
Proof. destruct o; cbn; auto using add_mono. Qed.

Lemma expand_mono lv cur : forall acc nx j, expand x i g lv cur acc = Some nx -> has acc j -> has nx j.
Proof.
  induction cur as [|[j' s] r IH]; cbn [expand]; intros acc nx j H A.
  - injection H as <-. exact A.
  - destruct (nth_error lv (N.to_nat j')) as [[v h l| |]|]; try discriminate;
    eapply IH; eauto using addo_mono, add_mono.
Qed.
Lemma expand_ok lv cur : forall acc nx j, expand x i g lv cur acc = Some nx -> has cur j ->
  match nth_error lv (N.to_nat j) with
  | Some (C v h l) => has nx (if f v then h else l)
  | Some P => has nx j
  | _ => False
  end.
Proof.
  induction cur as [|[j' s] r IH]; cbn [expand]; intros acc nx j H (s0 & I & O); [destruct I|].
  destruct I as [E|I].
  - injection E as -> ->.
    destruct (nth_error lv (N.to_nat j)) as [[v h l| |]|] eqn:NE; try discriminate.
    + eapply expand_mono; [exact H|].
      destruct (step_ok s0 v O) as (s' & S & O'). destruct (f v).
      * rewrite S. cbn [addo]. now apply has_add.
      * apply addo_mono. rewrite S. cbn [addo]. now apply has_add.
    + eapply expand_mono; [exact H|]. now apply has_add.
  - destruct (nth_error lv (N.to_nat j')) as [[v h l| |]|]; try discriminate;
    eapply IH; eauto; exists s0; auto.
Qed.

Lemma explore_ok ls : forall cur j, explore x i g ls cur = true -> has cur j -> bsem f ls j = T.
Proof.
  induction ls as [|lv r IH]; cbn [explore bsem]; intros cur j H A.
  - destruct A as (s & I & O). rewrite forallb_forall in H. specialize (H _ I).
    unfold g0. destruct s as [| | |b]; cbn in H; try discriminate. cbn [ok] in O. rewrite O.
    destruct b; apply N.eqb_eq in H; subst j; reflexivity.
  - destruct (expand x i g lv cur []) as [nx|] eqn:E; [|discriminate].
    pose proof (expand_ok _ _ _ _ _ E A) as P. unfold next_vals.
    destruct (nth_error lv (N.to_nat j)) as [[v h l| |]|]; try contradiction.
    + specialize (IH _ _ H P). now destruct (f v).
    + eauto.
Qed.

Lemma check_bit_ok inp nin c :
  (forall v, v < nin -> inp v = Some (f v)) ->
  sound_bit nin c = true -> check_bit x g i c = true -> eval_bit inp c = Some T.
Proof.
  intros I S H. destruct c as [[|w] nodes].
  - cbn [eval_bit]. unfold check_bit in H.
    pose proof (start_ok g T eq_refl) as O. destruct (start i g) as [| | |[]]; try discriminate.
    cbn in O. now rewrite O.
  - rewrite (eval_bit_ok inp f nin I w nodes S). f_equal.
    eapply explore_ok; [exact H|]. exists (start i g). split; [now left|]. now apply start_ok.
Qed.
End Explore.
End States.

Lemma check_from_ok f x g inp nin cs : forall i,
  (forall v b, In (v, b) (known x) -> f v = b) ->
  (forall v, v < nin -> inp v = Some (f v)) ->
  forallb (sound_bit nin) cs = true -> check_from x g i cs = true ->
  exists bs, eval_bits inp cs = Some bs /\ i + N.of_nat (length bs) = 32 /\
    forall k, (k < length bs)%nat -> nth k bs false = goal_bit f (i + N.of_nat k) g.
Proof.
  induction cs as [|c r IH]; intros i K I S H.
  - exists []. cbn in *. split; [reflexivity|]. apply N.eqb_eq in H. split; [lia|]. intros; lia.
  - cbn [forallb check_from] in *. apply andb_true_iff in S as [S1 S2]. apply andb_true_iff in H as [H1 H2].
    destruct (IH _ K I S2 H2) as (bs & E & L & B).
    cbn [eval_bits]. rewrite (check_bit_ok f i ltac:(lia) x g K inp nin c I S1 H1), E.
    eexists; split; [reflexivity|]. cbn [length]. split; [lia|].
    intros [|k] Hk; cbn [nth].
    + f_equal. lia.
    + rewrite B by lia. f_equal. lia.
Qed.

(** the verdict of [check]: a word with the expected bits. *)
Lemma check_ok f x g c inp :
  (forall v b, In (v, b) (known x) -> f v = b) ->
  (forall v, v < input_bits c -> inp v = Some (f v)) ->
  check x g c = true ->
  exists w, eval_circuit c inp = Some w /\ (0 <= w < 4294967296)%Z /\
    forall i, i < 32 -> Z.testbit w (Z.of_N i) = goal_bit f i g.
Proof.
  intros K I H. unfold check in H. apply andb_true_iff in H as [H S].
  destruct (check_from_ok f x g (fun v => if v <? input_bits c then inp v else None)
              (input_bits c) (bits_out c) 0 K) as (bs & E & L & B); auto.
  { intros v Hv. rewrite (proj2 (N.ltb_lt _ _) Hv). auto. }
  unfold eval_circuit. rewrite E. eexists; split; [reflexivity|].
  assert (LN : length bs = 32%nat) by lia.
  split. { pose proof (pack_range bs) as R. rewrite LN in R. exact R. }
  intros i Hi. rewrite <- (N2Nat.id i) at 1. rewrite nat_N_Z, pack_testbit, B by lia.
  f_equal. lia.
Qed.
