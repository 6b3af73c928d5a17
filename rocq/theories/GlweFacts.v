(** Facts about [Glwe]: rotations compose, the swap network is undone by its
    reverse. *)
Require Import ZArith List Bool Lia.
Require Import Verif.Word Verif.ListFacts Verif.Bdd Verif.Glwe.
Import ListNotations.
Open Scope Z_scope.
Ltac Zify.zify_post_hook ::= idtac.

(** ** negacyclic rotation *)
Lemma ring_pos log : (0 < ring log)%nat.
Proof. unfold ring. induction log; cbn; lia. Qed.

Definition cf (n : nat) (p : poly) (j : Z) : Z :=
  let m := j mod (2 * Z.of_nat n) in
  if m <? Z.of_nat n then nth (Z.to_nat m) p 0 else - nth (Z.to_nat (m - Z.of_nat n)) p 0.

Lemma nth_map_seq (f : nat -> Z) n i : (i < n)%nat -> nth i (map f (seq 0 n)) 0 = f i.
Proof.
  intro H. rewrite (nth_indep _ 0 (f 0%nat)) by (now rewrite map_length, seq_length).
  rewrite map_nth. f_equal. rewrite seq_nth; auto.
Qed.

Lemma rotate_length log k p : length (rotate log k p) = ring log.
Proof. unfold rotate. now rewrite map_length, seq_length. Qed.

Lemma rotate_nth log k p i : (i < ring log)%nat ->
  nth i (rotate log k p) 0 = cf (ring log) p (Z.of_nat i - k).
Proof.
  intro H. unfold rotate. rewrite nth_map_seq by auto. unfold cf.
  pose proof (Z.mod_pos_bound (Z.of_nat i - k) (2 * Z.of_nat (ring log)) ltac:(lia)) as B.
  set (m := (Z.of_nat i - k) mod (2 * Z.of_nat (ring log))) in *.
  destruct (Nat.ltb_spec (Z.to_nat m) (ring log)); destruct (Z.ltb_spec m (Z.of_nat (ring log))); try lia; auto.
  f_equal. f_equal. lia.
Qed.

Lemma cf_small n p i : (i < n)%nat -> cf n p (Z.of_nat i) = nth i p 0.
Proof.
  intro H. unfold cf. rewrite Z.mod_small by lia.
  destruct (Z.ltb_spec (Z.of_nat i) (Z.of_nat n)); [|lia]. now rewrite Nat2Z.id.
Qed.
Lemma cf_period n p j : (0 < n)%nat -> cf n p (j mod (2 * Z.of_nat n)) = cf n p j.
Proof. intro H. unfold cf. rewrite Z.mod_mod by lia. reflexivity. Qed.
Lemma cf_anti n p j : (0 < n)%nat -> cf n p (j - Z.of_nat n) = - cf n p j.
Proof.
  intro H. unfold cf.
  pose proof (Z.mod_pos_bound j (2 * Z.of_nat n) ltac:(lia)) as B.
  pose proof (Z.div_mod j (2 * Z.of_nat n) ltac:(lia)) as D.
  set (m := j mod (2 * Z.of_nat n)) in *.
  set (q := j / (2 * Z.of_nat n)) in *.
  assert (E : (j - Z.of_nat n) mod (2 * Z.of_nat n)
              = if m <? Z.of_nat n then m + Z.of_nat n else m - Z.of_nat n).
  { destruct (Z.ltb_spec m (Z.of_nat n)); symmetry.
    - apply Z.mod_unique with (q - 1); lia.
    - apply Z.mod_unique with q; lia. }
  rewrite E. clear E.
  destruct (Z.ltb_spec m (Z.of_nat n)).
  - destruct (Z.ltb_spec (m + Z.of_nat n) (Z.of_nat n)); [lia|].
    replace (m + Z.of_nat n - Z.of_nat n) with m by lia. reflexivity.
  - destruct (Z.ltb_spec (m - Z.of_nat n) (Z.of_nat n)); lia.
Qed.

Lemma cf_rotate log k p j : cf (ring log) (rotate log k p) j = cf (ring log) p (j - k).
Proof.
  pose proof (ring_pos log) as P. set (n := ring log) in *.
  unfold cf at 1. cbv zeta.
  pose proof (Z.mod_pos_bound j (2 * Z.of_nat n) ltac:(lia)) as B.
  rewrite <- (cf_period n p (j - k)) by auto.
  replace ((j - k) mod (2 * Z.of_nat n)) with ((j mod (2 * Z.of_nat n) - k) mod (2 * Z.of_nat n))
    by (now rewrite Zminus_mod_idemp_l).
  rewrite cf_period by auto.
  set (m := j mod (2 * Z.of_nat n)) in *.
  destruct (Z.ltb_spec m (Z.of_nat n)).
  - rewrite rotate_nth by lia. fold n. now rewrite Z2Nat.id by lia.
  - rewrite rotate_nth by (fold n; lia). fold n. rewrite Z2Nat.id by lia.
    replace (m - Z.of_nat n - k) with ((m - k) - Z.of_nat n) by lia.
    rewrite cf_anti by auto. lia.
Qed.

Lemma nth_ext0 (p q : poly) : length p = length q ->
  (forall i, (i < length p)%nat -> nth i p 0 = nth i q 0) -> p = q.
Proof. intros. now apply nth_ext with 0 0. Qed.

Lemma rotate_rotate log a b p : rotate log a (rotate log b p) = rotate log (a + b) p.
Proof.
  apply nth_ext0; rewrite !rotate_length; auto. intros i H.
  rewrite !rotate_nth by auto. rewrite cf_rotate. f_equal. lia.
Qed.
Lemma rotate_0 log p : length p = ring log -> rotate log 0 p = p.
Proof.
  intro L. apply nth_ext0; rewrite ?rotate_length; auto. intros i H.
  rewrite rotate_nth by auto. rewrite Z.sub_0_r. now apply cf_small.
Qed.
(** reading: the rotated polynomial has the addressed coefficient in front *)
Lemma rotate_read log v p : (v < ring log)%nat -> nth 0 (rotate log (- Z.of_nat v) p) 0 = nth v p 0.
Proof.
  intro H. rewrite rotate_nth by apply ring_pos.
  replace (Z.of_nat 0 - - Z.of_nat v) with (Z.of_nat v) by lia. now apply cf_small.
Qed.

(** ** lists *)
Lemma upd_length A (l : list A) n x : length (upd l n x) = length l.
Proof. revert n; induction l; intros [|n]; cbn; auto. Qed.
Lemma upd_nth_error A (l : list A) n x k :
  nth_error (upd l n x) k = if (k =? n)%nat then (if (n <? length l)%nat then Some x else None) else nth_error l k.
Proof.
  revert n k; induction l as [|h t IH]; intros [|n] [|k]; cbn; auto.
  - now destruct (k =? n)%nat.
  - rewrite IH. reflexivity.
Qed.
Lemma upd_nth (l : list Z) n x k :
  nth k (upd l n x) 0 = if (k =? n)%nat then (if (n <? length l)%nat then x else 0) else nth k l 0.
Proof.
  revert n k; induction l as [|h t IH]; intros [|n] [|k]; cbn; auto.
  - now destruct (k =? n)%nat.
  - rewrite IH. reflexivity.
Qed.
Lemma set_nth_upd A (l : list A) n x : (n < length l)%nat -> set_nth l n x = Some (upd l n x).
Proof.
  revert n; induction l as [|h t IH]; intros [|n] H; cbn in *; try lia; auto.
  rewrite IH by lia. reflexivity.
Qed.
Lemma upd_self A (l : list A) n x : nth_error l n = Some x -> upd l n x = l.
Proof. revert n; induction l as [|h t IH]; intros [|n] H; cbn in *; try discriminate; [congruence|f_equal; auto]. Qed.
Lemma upd_out A (l : list A) n x : (length l <= n)%nat -> upd l n x = l.
Proof. revert n; induction l as [|h t IH]; intros [|n] H; cbn in *; try lia; auto. f_equal. apply IH. lia. Qed.
Lemma upd_upd A (l : list A) n x y : upd (upd l n x) n y = upd l n y.
Proof. revert n; induction l as [|h t IH]; intros [|n]; cbn; auto. f_equal; auto. Qed.

(** ** the coefficient of a written word: rotate, replace the constant
    coefficient, rotate back *)
Lemma const_poly_length log c : length (const_poly log c) = ring log.
Proof. unfold const_poly. now rewrite map_length, seq_length. Qed.
Lemma const_poly_nth log c i : nth i (const_poly log c) 0 = if (i =? 0)%nat then c else 0.
Proof.
  unfold const_poly. destruct (le_lt_dec (ring log) i).
  - rewrite nth_overflow by (rewrite map_length, seq_length; auto).
    pose proof (ring_pos log). destruct (Nat.eqb_spec i 0); auto; lia.
  - now rewrite nth_map_seq.
Qed.
Lemma nth_map_combine (f : Z -> Z -> Z) : f 0 0 = 0 -> forall (p q : poly), length p = length q ->
  forall i, nth i (map (fun xy => f (fst xy) (snd xy)) (combine p q)) 0 = f (nth i p 0) (nth i q 0).
Proof.
  intros F0 p; induction p as [|x p IH]; intros [|y q] L [|i]; cbn in *; try discriminate; auto.
Qed.
Lemma psub_nth p q i : length p = length q -> nth i (psub p q) 0 = nth i p 0 - nth i q 0.
Proof. intro L. exact (nth_map_combine Z.sub eq_refl p q L i). Qed.
Lemma padd_nth p q i : length p = length q -> nth i (padd p q) 0 = nth i p 0 + nth i q 0.
Proof. intro L. exact (nth_map_combine Z.add eq_refl p q L i). Qed.
Lemma psub_length p q : length p = length q -> length (psub p q) = length p.
Proof. intro L. unfold psub. rewrite map_length, combine_length. lia. Qed.
Lemma padd_length p q : length p = length q -> length (padd p q) = length p.
Proof. intro L. unfold padd. rewrite map_length, combine_length. lia. Qed.

Lemma overwrite log p c : length p = ring log ->
  padd (psub p (const_poly log (nth 0 p 0))) (const_poly log c) = upd p 0 c.
Proof.
  intro L.
  assert (L1 : length p = length (const_poly log (nth 0 p 0))) by now rewrite const_poly_length.
  assert (L2 : length (psub p (const_poly log (nth 0 p 0))) = length (const_poly log c))
    by now rewrite psub_length, const_poly_length.
  apply nth_ext0.
  - now rewrite padd_length, psub_length, upd_length.
  - intros i _. rewrite padd_nth, psub_nth, !const_poly_nth, upd_nth by auto.
    pose proof (ring_pos log). destruct (Nat.eqb_spec i 0) as [->|]; [|lia].
    destruct (Nat.ltb_spec 0 (length p)); lia.
Qed.
Lemma erase log p : length p = ring log ->
  psub p (const_poly log (nth 0 p 0)) = upd p 0 0.
Proof.
  intro L. rewrite <- (overwrite log p 0 L).
  assert (L1 : length p = length (const_poly log (nth 0 p 0))) by now rewrite const_poly_length.
  assert (L2 : length (psub p (const_poly log (nth 0 p 0))) = length (const_poly log 0))
    by now rewrite psub_length, const_poly_length.
  apply nth_ext0.
  - now rewrite padd_length.
  - intros i _. rewrite padd_nth, const_poly_nth by auto. destruct (i =? 0)%nat; lia.
Qed.

Lemma cf_upd0 n p c j : (0 < n)%nat -> (length p = n)%nat ->
  cf n (upd p 0 c) j = if j mod (2 * Z.of_nat n) =? 0 then c
                       else if j mod (2 * Z.of_nat n) =? Z.of_nat n then - c else cf n p j.
Proof.
  intros H L. unfold cf. pose proof (Z.mod_pos_bound j (2 * Z.of_nat n) ltac:(lia)) as B.
  set (m := j mod (2 * Z.of_nat n)) in *. rewrite !upd_nth.
  destruct (Z.eqb_spec m 0); destruct (Z.eqb_spec m (Z.of_nat n));
  destruct (Z.ltb_spec m (Z.of_nat n)); destruct (Nat.ltb_spec 0 (length p));
  destruct (Nat.eqb_spec (Z.to_nat m) 0); destruct (Nat.eqb_spec (Z.to_nat (m - Z.of_nat n)) 0); try lia.
Qed.

Lemma rotate_write log v p c : length p = ring log -> (v < ring log)%nat ->
  rotate log (Z.of_nat v) (upd (rotate log (- Z.of_nat v) p) 0 c) = upd p v c.
Proof.
  intros L H. pose proof (ring_pos log) as P.
  apply nth_ext0; rewrite ?upd_length, ?rotate_length; auto. intros i Hi.
  rewrite rotate_nth, cf_upd0, upd_nth by (auto; now rewrite rotate_length).
  assert (E : (Z.of_nat i - Z.of_nat v) mod (2 * Z.of_nat (ring log))
     = if (v <=? i)%nat then Z.of_nat i - Z.of_nat v else Z.of_nat i - Z.of_nat v + 2 * Z.of_nat (ring log)).
  { symmetry. destruct (Nat.leb_spec v i).
    - apply Z.mod_unique with 0; lia.
    - apply Z.mod_unique with (-1); lia. }
  rewrite E, cf_rotate. replace (Z.of_nat i - Z.of_nat v - - Z.of_nat v) with (Z.of_nat i) by lia.
  rewrite cf_small by auto.
  destruct (Nat.ltb_spec v (length p)); [|lia].
  destruct (Nat.leb_spec v i); destruct (Nat.eqb_spec i v); try lia.
  - subst. now rewrite Z.sub_diag.
  - destruct (Z.eqb_spec (Z.of_nat i - Z.of_nat v) 0); [lia|].
    destruct (Z.eqb_spec (Z.of_nat i - Z.of_nat v) (Z.of_nat (ring log))); [lia|auto].
  - destruct (Z.eqb_spec (Z.of_nat i - Z.of_nat v + 2 * Z.of_nat (ring log)) 0); [lia|].
    destruct (Z.eqb_spec (Z.of_nat i - Z.of_nat v + 2 * Z.of_nat (ring log)) (Z.of_nat (ring log))); [lia|auto].
Qed.

(** ** address bits *)
Definition aval (addr : list bool) (rsh k : nat) : nat := bits_val (firstn k (skipn rsh addr)).

Lemma bits_val_cons x a : bits_val (x :: a) = ((if x then 1 else 0) + 2 * bits_val a)%nat.
Proof. reflexivity. Qed.
Lemma bits_val_app a b : bits_val (a ++ b) = (bits_val a + 2 ^ length a * bits_val b)%nat.
Proof.
  induction a as [|x a IH].
  - change ([] ++ b) with b. change (bits_val []) with 0%nat. change (2 ^ length (@nil bool))%nat with 1%nat. lia.
  - change ((x :: a) ++ b) with (x :: (a ++ b)). cbn [length Nat.pow]. rewrite !bits_val_cons, IH.
    destruct x; lia.
Qed.
Lemma bits_val_lt bs : (bits_val bs < 2 ^ length bs)%nat.
Proof.
  induction bs as [|b bs IH]; [cbn; lia|].
  rewrite bits_val_cons. cbn [length Nat.pow]. destruct b; lia.
Qed.

Lemma aval_0 addr rsh : aval addr rsh 0 = 0%nat.
Proof. reflexivity. Qed.
Lemma firstn_add_skipn A (l : list A) j k : firstn (j + k) l = firstn j l ++ firstn k (skipn j l).
Proof. revert l; induction j; intros [|x l]; cbn; auto; [now rewrite firstn_nil|f_equal; auto]. Qed.
Lemma skipn_skipn A (l : list A) j k : skipn j (skipn k l) = skipn (k + j) l.
Proof. revert l; induction k; intros [|x l]; cbn; auto. now rewrite skipn_nil. Qed.
Lemma aval_add addr rsh j k : (rsh + j <= length addr)%nat ->
  aval addr rsh (j + k) = (aval addr rsh j + 2 ^ j * aval addr (rsh + j) k)%nat.
Proof.
  intro H. unfold aval. rewrite firstn_add_skipn, bits_val_app, skipn_skipn.
  rewrite firstn_length, skipn_length, Nat.min_l by lia. reflexivity.
Qed.
Lemma nth_skipn A (l : list A) j d : forall i, nth i (skipn j l) d = nth (j + i) l d.
Proof. revert l; induction j; intros [|x l] i; cbn; auto. now destruct i. Qed.
Lemma aval_S addr rsh j : (rsh + S j <= length addr)%nat ->
  aval addr rsh (S j) = (aval addr rsh j + if nth (rsh + j) addr false then 2 ^ j else 0)%nat.
Proof.
  intro H. replace (S j) with (j + 1)%nat by lia. rewrite aval_add by lia. f_equal.
  unfold aval. pose proof (nth_skipn _ addr (rsh + j) false 0) as E. rewrite Nat.add_0_r in E. rewrite <- E.
  assert (L : (0 < length (skipn (rsh + j) addr))%nat) by (rewrite skipn_length; lia).
  destruct (skipn (rsh + j) addr) as [|[|] t]; cbn in *; lia.
Qed.
Lemma aval_lt addr rsh k : (aval addr rsh k < 2 ^ k)%nat.
Proof.
  unfold aval. eapply Nat.lt_le_trans; [apply bits_val_lt|].
  apply Nat.pow_le_mono_r; [lia|]. rewrite firstn_length. lia.
Qed.

Lemma blind_rotate_ideal log sign (addr : list bool) rsh mask (p : poly) : (rsh + mask <= length addr)%nat -> length p = ring log ->
  blind_rotate (Ideal log) sign addr rsh mask p
  = Some (rotate log ((if sign then 1 else -1) * Z.of_nat (aval addr rsh mask)) p).
Proof.
  intros H L. unfold blind_rotate. rewrite (proj2 (Nat.leb_le _ _) H). f_equal.
  cbn [a_crot a_pzero Ideal].
  induction mask as [|mask IH].
  - cbn. rewrite Z.mul_0_r. now rewrite rotate_0.
  - rewrite seq_S, fold_left_app, IH by lia. cbn [fold_left plus].
    rewrite aval_S by lia. destruct (nth (rsh + mask) addr false).
    + rewrite rotate_rotate. f_equal. rewrite Nat2Z.inj_add, Nat2Z.inj_pow. change (Z.of_nat 2) with 2. destruct sign; lia.
    + now rewrite Nat.add_0_r.
Qed.

(** ** the swap network *)
Section Net.
Variable log : nat.
Notation I := (Ideal log).

(** where the entry found at position [p] after a level comes from *)
Definition sigma (b : bool) (t len p : nat) : nat :=
  if b then
    if (p <? t)%nat then (if (p + t <? len)%nat then p + t else p)%nat
    else if (p <? 2 * t)%nat then (p - t)%nat else p
  else p.

Lemma swap_nth (b : bool) i j (l : list poly) k : (i < length l)%nat -> (j < length l)%nat -> i <> j ->
  nth_error (swap I b i j l) k =
  if b then if (k =? i)%nat then nth_error l j else if (k =? j)%nat then nth_error l i else nth_error l k
  else nth_error l k.
Proof.
  intros Hi Hj N. unfold swap.
  destruct (nth_error_lt _ _ _ Hi) as [x Ex]. destruct (nth_error_lt _ _ _ Hj) as [y Ey].
  rewrite Ex, Ey. cbn [a_cswap Ideal]. destruct b.
  - rewrite !upd_nth_error, upd_length.
    destruct (Nat.ltb_spec j (length l)); [|lia]. destruct (Nat.ltb_spec i (length l)); [|lia].
    destruct (Nat.eqb_spec k i); destruct (Nat.eqb_spec k j); subst; try lia; auto.
  - rewrite (upd_self _ l i x Ex), (upd_self _ l j y Ey). reflexivity.
Qed.
Lemma swap_length b i j (l : list poly) : length (swap I b i j l) = length l.
Proof.
  unfold swap. destruct (nth_error l i) as [x|]; auto. destruct (nth_error l j) as [y|]; auto.
  destruct (a_cswap I b x y). now rewrite !upd_length.
Qed.

Definition part_level (b : bool) (t m : nat) (l : list poly) : list poly :=
  fold_left (fun l j => if (j + t <? length l)%nat then swap I b j (j + t) l else l) (seq 0 m) l.
Lemma part_level_length b t m (l : list poly) : length (part_level b t m l) = length l.
Proof.
  unfold part_level. induction m; auto.
  rewrite seq_S, fold_left_app. cbn [fold_left plus].
  destruct (_ <? _)%nat; [rewrite swap_length|]; apply IHm.
Qed.
Lemma part_level_nth b t m (l : list poly) p : (m <= t)%nat ->
  nth_error (part_level b t m l) p =
  nth_error l (if b then
    if (p <? m)%nat then (if (p + t <? length l)%nat then p + t else p)%nat
    else if (t <=? p)%nat && (p <? t + m)%nat && (p <? length l)%nat then (p - t)%nat else p
  else p).
Proof.
  revert p. induction m as [|m IH]; intros p Hm.
  - change (part_level b t 0 l) with l. destruct b; auto.
    destruct (Nat.ltb_spec p 0); [lia|]. destruct (Nat.leb_spec t p); [|reflexivity].
    destruct (Nat.ltb_spec p (t + 0)); [lia|reflexivity].
  - unfold part_level. rewrite seq_S, fold_left_app. cbn [fold_left plus].
    fold (part_level b t m l). rewrite part_level_length.
    destruct (Nat.ltb_spec (m + t) (length l)) as [Hlt|Hge].
    + rewrite swap_nth by (rewrite ?part_level_length; lia).
      destruct b; [|now rewrite IH by lia].
      destruct (Nat.eqb_spec p m) as [->|Hpm].
      * rewrite IH by lia. destruct (Nat.ltb_spec (m + t) m); [lia|].
        destruct (Nat.leb_spec t (m + t)); [|lia]. destruct (Nat.ltb_spec (m + t) (t + m)); [lia|]. cbn [andb].
        destruct (Nat.ltb_spec m (S m)); [|lia]. destruct (Nat.ltb_spec (m + t) (length l)); [reflexivity|lia].
      * destruct (Nat.eqb_spec p (m + t)) as [->|Hpt].
        -- rewrite IH by lia. destruct (Nat.ltb_spec m m); [lia|].
           destruct (Nat.leb_spec t m); cbn [andb].
           ++ lia.
           ++ destruct (Nat.ltb_spec (m + t) (S m)); [lia|]. destruct (Nat.leb_spec t (m + t)); [|lia].
              destruct (Nat.ltb_spec (m + t) (t + S m)); [|lia].
              destruct (Nat.ltb_spec (m + t) (length l)); [|lia]. cbn. f_equal. lia.
        -- rewrite IH by lia.
           destruct (Nat.ltb_spec p m); destruct (Nat.ltb_spec p (S m)); try lia; try reflexivity.
           destruct (Nat.leb_spec t p); cbn [andb]; try reflexivity.
           destruct (Nat.ltb_spec p (t + m)); destruct (Nat.ltb_spec p (t + S m)); try lia; try reflexivity.
    + rewrite IH by lia. destruct b; auto.
      destruct (Nat.ltb_spec p m); destruct (Nat.ltb_spec p (S m)); try lia; try reflexivity.
      * assert (p = m) by lia; subst p. destruct (Nat.leb_spec t m); [lia|]. cbn [andb].
        destruct (Nat.ltb_spec (m + t) (length l)); [lia|reflexivity].
      * destruct (Nat.leb_spec t p); cbn [andb]; try reflexivity.
        destruct (Nat.ltb_spec p (t + m)); destruct (Nat.ltb_spec p (t + S m)); cbn [andb]; try lia; try reflexivity.
        destruct (Nat.ltb_spec p (length l)); [lia|reflexivity].
Qed.

Lemma swap_level_length b t (l : list poly) : length (swap_level I b t l) = length l.
Proof. exact (part_level_length b t t l). Qed.
Lemma swap_level_nth b t (l : list poly) p :
  nth_error (swap_level I b t l) p = nth_error l (sigma b t (length l) p) \/ (length l <= p)%nat.
Proof.
  destruct (le_lt_dec (length l) p) as [H|H]; [now right|left].
  change (swap_level I b t l) with (part_level b t t l). rewrite part_level_nth by lia. unfold sigma.
  destruct b; auto. destruct (Nat.ltb_spec p t); auto.
  destruct (Nat.leb_spec t p); [|lia]. replace (t + t)%nat with (2 * t)%nat by lia.
  destruct (Nat.ltb_spec p (length l)); [|lia]. rewrite andb_true_r. reflexivity.
Qed.
Lemma sigma_lt b t len p : (p < len)%nat -> (sigma b t len p < len)%nat.
Proof.
  intro H. unfold sigma. destruct b; auto.
  destruct (p <? t)%nat; [destruct (Nat.ltb_spec (p + t) len); lia|].
  destruct (p <? 2 * t)%nat; lia.
Qed.
Lemma sigma_sigma b t len p : (p < len)%nat -> sigma b t len (sigma b t len p) = p.
Proof.
  intro H. unfold sigma. destruct b; auto.
  destruct (Nat.ltb_spec p t).
  - destruct (Nat.ltb_spec (p + t) len).
    + destruct (Nat.ltb_spec (p + t) t); [lia|]. destruct (Nat.ltb_spec (p + t) (2 * t)); lia.
    + destruct (Nat.ltb_spec p t); [|lia]. destruct (Nat.ltb_spec (p + t) len); lia.
  - destruct (Nat.ltb_spec p (2 * t)).
    + destruct (Nat.ltb_spec (p - t) t); [|lia]. destruct (Nat.ltb_spec (p - t + t) len); lia.
    + destruct (Nat.ltb_spec p t); [lia|]. destruct (Nat.ltb_spec p (2 * t)); lia.
Qed.

Lemma list_eq (l1 l2 : list poly) : length l1 = length l2 ->
  (forall p, (p < length l1)%nat -> nth_error l1 p = nth_error l2 p) -> l1 = l2.
Proof.
  intros L H. apply nth_error_ext. intro n. destruct (le_lt_dec (length l1) n).
  - rewrite (proj2 (nth_error_None l1 n)), (proj2 (nth_error_None l2 n)) by lia. reflexivity.
  - auto.
Qed.
Lemma swap_level_nth' b t (l : list poly) p : (p < length l)%nat ->
  nth_error (swap_level I b t l) p = nth_error l (sigma b t (length l) p).
Proof. intro H. destruct (swap_level_nth b t l p); auto; lia. Qed.
Lemma swap_level_twice b t (l : list poly) : swap_level I b t (swap_level I b t l) = l.
Proof.
  apply list_eq; rewrite ?swap_level_length; auto. intros p H.
  rewrite swap_level_nth' by now rewrite swap_level_length. rewrite swap_level_length.
  rewrite swap_level_nth' by now apply sigma_lt. now rewrite sigma_sigma.
Qed.
Lemma swap_level_upd b t (l : list poly) p x : (p < length l)%nat ->
  swap_level I b t (upd l p x) = upd (swap_level I b t l) (sigma b t (length l) p) x.
Proof.
  intro Hp. apply list_eq; rewrite ?upd_length, ?swap_level_length, ?upd_length; auto. intros q H.
  rewrite swap_level_nth' by now rewrite upd_length. rewrite !upd_nth_error, upd_length, swap_level_length.
  rewrite swap_level_nth' by auto.
  pose proof (sigma_lt b t (length l) p Hp).
  destruct (Nat.eqb_spec (sigma b t (length l) q) p) as [E|N]; destruct (Nat.eqb_spec q (sigma b t (length l) p)) as [E'|N'].
  - destruct (Nat.ltb_spec p (length l)); destruct (Nat.ltb_spec (sigma b t (length l) p) (length l)); try lia; auto.
  - exfalso. apply N'. rewrite <- E. now rewrite sigma_sigma.
  - exfalso. apply N. subst. now rewrite sigma_sigma.
  - reflexivity.
Qed.

Variables (addr : list bool) (rsh : nat).
(** the entry that a gather of [mask] levels brings to the front *)
Fixpoint front (mask len : nat) : nat :=
  match mask with
  | O => 0
  | S m => sigma (nth (rsh + m) addr false) (2 ^ m) len (front m len)
  end.
Lemma front_lt mask len : (0 < len)%nat -> (front mask len < len)%nat.
Proof. intro H. induction mask; cbn; auto. now apply sigma_lt. Qed.
Lemma front_in_range mask len : (rsh + mask <= length addr)%nat -> (aval addr rsh mask < len)%nat ->
  front mask len = aval addr rsh mask.
Proof.
  induction mask as [|m IH]; intros H Hlt; [reflexivity|].
  cbn [front]. rewrite aval_S in * by lia. pose proof (aval_lt addr rsh m).
  destruct (nth (rsh + m) addr false).
  - rewrite IH by lia. unfold sigma.
    destruct (Nat.ltb_spec (aval addr rsh m) (2 ^ m)); [|lia].
    destruct (Nat.ltb_spec (aval addr rsh m + 2 ^ m) len); lia.
  - rewrite Nat.add_0_r in *. rewrite IH by lia. reflexivity.
Qed.

Definition gather (mask : nat) : list poly -> list poly := net I addr rsh (rev (seq 0 mask)).
Definition scatter (mask : nat) : list poly -> list poly := net I addr rsh (seq 0 mask).
Lemma gather_S m (l : list poly) : gather (S m) l = gather m (swap_level I (nth (rsh + m) addr false) (2 ^ m) l).
Proof. unfold gather. rewrite seq_S, rev_app_distr. reflexivity. Qed.
Lemma scatter_S m (l : list poly) : scatter (S m) l = swap_level I (nth (rsh + m) addr false) (2 ^ m) (scatter m l).
Proof. unfold scatter, net. now rewrite seq_S, fold_left_app. Qed.
Lemma gather_length m (l : list poly) : length (gather m l) = length l.
Proof. revert l; induction m; intro l; auto. rewrite gather_S, IHm. apply swap_level_length. Qed.
Lemma scatter_length m (l : list poly) : length (scatter m l) = length l.
Proof. induction m; auto. rewrite scatter_S, swap_level_length. apply IHm. Qed.
Lemma gather_front m (l : list poly) : (0 < length l)%nat -> nth_error (gather m l) 0 = nth_error l (front m (length l)).
Proof.
  revert l; induction m as [|m IH]; intros l H; [reflexivity|].
  rewrite gather_S, IH by now rewrite swap_level_length.
  rewrite swap_level_length. cbn [front].
  apply swap_level_nth'. now apply front_lt.
Qed.
Lemma scatter_gather_upd m (l : list poly) x : (0 < length l)%nat ->
  scatter m (upd (gather m l) 0 x) = upd l (front m (length l)) x.
Proof.
  revert l; induction m as [|m IH]; intros l H; [reflexivity|].
  rewrite gather_S, scatter_S, IH by now rewrite swap_level_length.
  rewrite swap_level_length.
  rewrite swap_level_upd by (rewrite swap_level_length; now apply front_lt).
  rewrite swap_level_twice, swap_level_length. reflexivity.
Qed.
End Net.
