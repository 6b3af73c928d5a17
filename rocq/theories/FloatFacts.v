(** * The standard library's binary32 arithmetic is the one of [FloatSpec] *)
Require Import ZArith Bool Lia List.
From Coq Require Import Floats.SpecFloat.
From Verif Require Import FloatSpec.
Open Scope Z_scope.

Notation fx := (SpecFloat.fexp 24 128).
Lemma fx_eq e : fx e = Z.max (e - 24) (-149).
Proof. reflexivity. Qed.

(** ** Digits *)
Lemma digits_pos_log2 p : Zpos (digits2_pos p) = Z.log2 (Zpos p) + 1.
Proof.
  induction p as [p IH|p IH|]; [| |reflexivity].
  - cbn [digits2_pos]. rewrite Pos2Z.inj_succ, IH. change (Zpos p~1) with (2 * Zpos p + 1). rewrite Z.log2_succ_double by lia. lia.
  - cbn [digits2_pos]. rewrite Pos2Z.inj_succ, IH. change (Zpos p~0) with (2 * Zpos p). rewrite Z.log2_double by lia. lia.
Qed.
Lemma digits_bounds m : 0 < m -> 0 < Zdigits2 m /\ 2 ^ (Zdigits2 m - 1) <= m < 2 ^ Zdigits2 m.
Proof.
  intro H. destruct m as [|p|p]; try lia. cbn [Zdigits2]. pose proof (digits_pos_log2 p) as D. rewrite D.
  pose proof (Z.log2_nonneg (Zpos p)). pose proof (Z.log2_spec (Zpos p) ltac:(lia)) as L.
  replace (Z.log2 (Zpos p) + 1 - 1) with (Z.log2 (Zpos p)) by lia. rewrite Z.add_1_r. lia.
Qed.
Lemma digits_unique m k : 2 ^ (k - 1) <= m < 2 ^ k -> 0 < k -> Zdigits2 m = k.
Proof.
  intros H K. assert (P : 0 < m) by (pose proof (Z.pow_pos_nonneg 2 (k - 1)); lia).
  destruct (digits_bounds m P) as (A & B).
  destruct (Z.lt_trichotomy (Zdigits2 m) k) as [L|[L|L]]; [|exact L|].
  - pose proof (Z.pow_le_mono_r 2 (Zdigits2 m) (k - 1)). lia.
  - pose proof (Z.pow_le_mono_r 2 k (Zdigits2 m - 1)). lia.
Qed.

(** ** What a mantissa with its two extra bits stands for *)
Definition rep (n d : Z) (x : shr_record) : Prop :=
  0 <= n /\ 0 < d /\ shr_m x = n / d /\
  match shr_r x, shr_s x with
  | false, false => n mod d = 0
  | false, true => 0 < n mod d /\ 2 * (n mod d) < d
  | true, false => 2 * (n mod d) = d
  | true, true => d < 2 * (n mod d)
  end.

Lemma half_div n d : 0 <= n -> 0 < d ->
  n / (d * 2) = n / d / 2 /\ n mod (d * 2) = d * (n / d mod 2) + n mod d.
Proof.
  intros. rewrite Z.div_div by lia. split; [reflexivity|]. rewrite Z.rem_mul_r by lia. lia.
Qed.
Lemma rep_shr1 n d x : rep n d x -> rep n (d * 2) (shr_1 x).
Proof.
  intros (N & D & M & R). destruct x as [m r s]. cbn [shr_m shr_r shr_s] in *.
  destruct (half_div n d N D) as [Q P]. pose proof (Z.mod_pos_bound n d D) as B.
  pose proof (Z.div_pos n d N D) as QP.
  assert (C : exists q b, n / d = 2 * q + b /\ 0 <= q /\ (b = 0 \/ b = 1) /\ shr_1 {| shr_m := m; shr_r := r; shr_s := s |} = {| shr_m := q; shr_r := (b =? 1); shr_s := r || s |}).
  { rewrite <- M in *. destruct m as [|[p|p|]|p]; try lia; cbn [shr_1].
    - exists 0, 0. repeat split; lia || auto.
    - exists (Zpos p), 1. repeat split; lia || auto.
    - exists (Zpos p), 0. repeat split; lia || auto.
    - exists 0, 1. repeat split; lia || auto. }
  destruct C as (q & b & E & Q0 & B01 & ->). unfold rep. cbn [shr_m shr_r shr_s]. rewrite Q, P, E.
  assert (E2 : (2 * q + b) / 2 = q) by (symmetry; apply (Z.div_unique _ _ _ b); lia).
  assert (E3 : (2 * q + b) mod 2 = b) by (symmetry; apply (Z.mod_unique _ _ q); lia).
  rewrite E2, E3. repeat split; try lia. destruct B01 as [-> | ->]; cbn [Z.eqb Pos.eqb]; destruct r, s; cbn [orb]; lia.
Qed.
Lemma rep_iter p : forall n d x, rep n d x -> rep n (d * 2 ^ Zpos p) (iter_pos shr_1 p x).
Proof.
  induction p as [p IH|p IH|]; intros n d x H; cbn [iter_pos].
  - change (Zpos p~1) with (2 * Zpos p + 1). replace (d * 2 ^ (2 * Zpos p + 1)) with (d * 2 * 2 ^ Zpos p * 2 ^ Zpos p).
    + apply IH, IH, rep_shr1, H.
    + rewrite Z.pow_add_r by lia. replace (2 * Zpos p) with (Zpos p + Zpos p) by lia. rewrite Z.pow_add_r by lia. lia.
  - change (Zpos p~0) with (2 * Zpos p). replace (d * 2 ^ (2 * Zpos p)) with (d * 2 ^ Zpos p * 2 ^ Zpos p).
    + apply IH, IH, H.
    + replace (2 * Zpos p) with (Zpos p + Zpos p) by lia. rewrite Z.pow_add_r by lia. lia.
  - apply rep_shr1, H.
Qed.
Lemma rep_nearest n d x : rep n d x -> round_nearest_even (shr_m x) (loc_of_shr_record x) = nearest n d.
Proof.
  intros (N & D & M & R). destruct x as [m r s]. cbn [shr_m shr_r shr_s] in *. subst m. unfold nearest. cbv zeta.
  pose proof (Z.mod_pos_bound n d D).
  destruct r, s; cbn [loc_of_shr_record round_nearest_even].
  - replace (2 * (n mod d) <? d) with false by lia. replace (2 * (n mod d) >? d) with true by lia. reflexivity.
  - replace (2 * (n mod d) <? d) with false by lia. replace (2 * (n mod d) >? d) with false by lia. reflexivity.
  - replace (2 * (n mod d) <? d) with true by lia. reflexivity.
  - replace (2 * (n mod d) <? d) with true by lia. reflexivity.
Qed.
Lemma shr_rep n d x e k : rep n d x -> 0 <= k -> exists y, shr x e k = (y, e + k) /\ rep n (d * 2 ^ k) y.
Proof.
  intros R K. destruct k as [|p|p]; try lia.
  - exists x. cbn [shr]. rewrite Z.add_0_r, Z.mul_1_r. auto.
  - eexists. split; [reflexivity|]. apply rep_iter, R.
Qed.

(** ** Rounding to an integer *)
Lemma nearest_bounds n d : 0 <= n -> 0 < d -> n / d <= nearest n d <= n / d + 1.
Proof. intros. unfold nearest. cbv zeta. destruct (2 * (n mod d) <? d), (2 * (n mod d) >? d), (Z.even (n / d)); lia. Qed.
Lemma nearest_mono n d n' d' : 0 <= n -> 0 < d -> 0 <= n' -> 0 < d' -> n * d' <= n' * d -> nearest n d <= nearest n' d'.
Proof.
  intros N D N' D' H.
  assert (Q : n / d <= n' / d').
  { apply Z.div_le_lower_bound; [lia|]. pose proof (Z.mul_div_le n d D). 
    destruct (Z_le_gt_dec (d' * (n / d)) n'); [lia|]. exfalso. nia. }
  destruct (Z.eq_dec (n / d) (n' / d')) as [E|E].
  - unfold nearest. cbv zeta. rewrite E. pose proof (Z.div_mod n d ltac:(lia)). pose proof (Z.div_mod n' d' ltac:(lia)).
    pose proof (Z.mod_pos_bound n d D). pose proof (Z.mod_pos_bound n' d' D').
    set (r := n mod d) in *. set (r' := n' mod d') in *. rewrite E in *. set (q := n' / d') in *.
    assert (C : r * d' <= r' * d) by nia.
    destruct (Z.ltb_spec (2 * r) d), (Z.ltb_spec (2 * r') d'); try lia.
    + destruct (2 * r' >? d'), (Z.even q); lia.
    + exfalso. nia.
    + destruct (Z.gtb_spec (2 * r) d), (Z.gtb_spec (2 * r') d'); try lia.
      * exfalso. nia.
      * destruct (Z.even q); lia.
  - pose proof (nearest_bounds n d N D). pose proof (nearest_bounds n' d' N' D'). lia.
Qed.
Lemma nearest_int m d : 0 <= m -> 0 < d -> nearest (m * d) d = m.
Proof.
  intros. unfold nearest. cbv zeta. rewrite Z.div_mul, Z.mod_mul by lia. replace (2 * 0 <? d) with true by lia. reflexivity.
Qed.
Lemma nearest_scale n d k : 0 <= n -> 0 < d -> 0 < k -> nearest (n * k) (d * k) = nearest n d.
Proof. intros. apply Z.le_antisymm; apply nearest_mono; nia. Qed.

(** ** Rounding to 24 bits *)
Lemma rnd_small n d : 0 <= n -> 0 < d -> n < 2 ^ 24 * d -> rnd n d = nearest n d.
Proof.
  intros N D L. unfold rnd. cbv zeta.
  assert (Q : n / d < 2 ^ 24) by (apply Z.div_lt_upper_bound; lia).
  pose proof (Z.div_pos n d N D).
  assert (G : Z.log2 (n / d) <= 23).
  { destruct (Z.eq_dec (n / d) 0) as [E|E]; [rewrite E; cbn; lia|]. enough (Z.log2 (n / d) < 24) by lia. apply Z.log2_lt_pow2; lia. }
  rewrite Z.max_l by lia. rewrite !Z.mul_1_r. reflexivity.
Qed.
Lemma rnd_big n d j : 0 < d -> 23 <= j -> 2 ^ j * d <= n < 2 ^ (j + 1) * d -> rnd n d = nearest n (d * 2 ^ (j - 23)) * 2 ^ (j - 23).
Proof.
  intros D J L. unfold rnd. cbv zeta. replace (Z.log2 (n / d)) with j; [rewrite Z.max_r by lia; reflexivity|].
  symmetry. apply Z.log2_unique; [lia|]. rewrite <- Z.add_1_r. split.
  - apply Z.div_le_lower_bound; lia.
  - apply Z.div_lt_upper_bound; lia.
Qed.
(** Which power of two the quotient is in. *)
Lemma log_cases n d : 0 <= n -> 0 < d -> n < 2 ^ 24 * d \/ exists j, 23 <= j /\ 2 ^ j * d <= n < 2 ^ (j + 1) * d.
Proof.
  intros N D. destruct (Z_lt_le_dec n (2 ^ 24 * d)) as [L|L]; [auto|right].
  assert (P : 2 ^ 24 <= n / d) by (apply Z.div_le_lower_bound; lia).
  exists (Z.log2 (n / d)). pose proof (Z.log2_spec (n / d) ltac:(lia)) as S. rewrite <- Z.add_1_r in S.
  split; [apply Z.log2_le_pow2; lia|]. pose proof (Z.mul_div_le n d D). pose proof (Z.mul_succ_div_gt n d D). split; nia.
Qed.
Lemma pow_split a b : 0 <= a -> 0 <= b -> 2 ^ (a + b) = 2 ^ a * 2 ^ b.
Proof. intros. apply Z.pow_add_r; assumption. Qed.
Lemma nearest_range n d a b : 0 <= n -> 0 < d -> 0 <= a -> a * d <= n -> n <= b * d -> a <= nearest n d <= b.
Proof.
  intros N D A L U. split.
  - rewrite <- (nearest_int a d) by lia. apply nearest_mono; nia.
  - rewrite <- (nearest_int b d) by nia. apply nearest_mono; nia.
Qed.
Lemma rnd_big_range n d j : 0 < d -> 23 <= j -> 2 ^ j * d <= n < 2 ^ (j + 1) * d -> 2 ^ j <= rnd n d <= 2 ^ (j + 1).
Proof.
  intros D J L. rewrite (rnd_big n d j) by assumption. pose proof (pow_split 23 (j - 23) ltac:(lia) ltac:(lia)) as E.
  pose proof (pow_split 24 (j - 23) ltac:(lia) ltac:(lia)) as E'. replace (23 + (j - 23)) with j in E by lia. replace (24 + (j - 23)) with (j + 1) in E' by lia.
  pose proof (Z.pow_pos_nonneg 2 (j - 23) ltac:(lia) ltac:(lia)) as P. set (u := 2 ^ (j - 23)) in *.
  assert (R : 2 ^ 23 <= nearest n (d * u) <= 2 ^ 24) by (apply nearest_range; nia). nia.
Qed.
Lemma rnd_small_range n d : 0 <= n -> 0 < d -> n < 2 ^ 24 * d -> 0 <= rnd n d <= 2 ^ 24.
Proof. intros N D L. rewrite rnd_small by assumption. apply nearest_range; nia. Qed.
Lemma rnd_nonneg n d : 0 <= n -> 0 < d -> 0 <= rnd n d.
Proof.
  intros N D. destruct (log_cases n d N D) as [L|(j & J & L)]; [apply rnd_small_range; assumption|].
  pose proof (rnd_big_range n d j D J L). pose proof (Z.pow_pos_nonneg 2 j ltac:(lia) ltac:(lia)). lia.
Qed.
Theorem rnd_mono n d n' d' : 0 <= n -> 0 < d -> 0 <= n' -> 0 < d' -> n * d' <= n' * d -> rnd n d <= rnd n' d'.
Proof.
  intros N D N' D' H.
  destruct (log_cases n d N D) as [L|(j & J & L)], (log_cases n' d' N' D') as [L'|(j' & J' & L')].
  - rewrite !rnd_small by assumption. apply nearest_mono; assumption.
  - destruct (Z.eq_dec j' 23) as [->|NE].
    + rewrite rnd_small, (rnd_big n' d' 23) by assumption. change (2 ^ (23 - 23)) with 1. rewrite !Z.mul_1_r. apply nearest_mono; assumption.
    + pose proof (rnd_small_range n d N D L). pose proof (rnd_big_range n' d' j' D' J' L').
      pose proof (Z.pow_le_mono_r 2 24 j' ltac:(lia) ltac:(lia)). lia.
  - destruct (Z.eq_dec j 23) as [->|NE].
    + rewrite (rnd_big n d 23), rnd_small by assumption. change (2 ^ (23 - 23)) with 1. rewrite !Z.mul_1_r. apply nearest_mono; assumption.
    + exfalso. pose proof (Z.pow_le_mono_r 2 24 j ltac:(lia) ltac:(lia)). nia.
  - destruct (Z.lt_trichotomy j j') as [C|[C|C]].
    + pose proof (rnd_big_range n d j D J L). pose proof (rnd_big_range n' d' j' D' J' L').
      pose proof (Z.pow_le_mono_r 2 (j + 1) j' ltac:(lia) ltac:(lia)). lia.
    + subst j'. rewrite (rnd_big n d j), (rnd_big n' d' j) by assumption. pose proof (Z.pow_pos_nonneg 2 (j - 23) ltac:(lia) ltac:(lia)).
      apply Z.mul_le_mono_nonneg_r; [lia|]. apply nearest_mono; nia.
    + exfalso. pose proof (Z.pow_le_mono_r 2 (j' + 1) j ltac:(lia) ltac:(lia)). nia.
Qed.
Lemma rnd_eq n d n' d' : 0 <= n -> 0 < d -> 0 <= n' -> 0 < d' -> n * d' = n' * d -> rnd n d = rnd n' d'.
Proof. intros. apply Z.le_antisymm; apply rnd_mono; lia. Qed.
Theorem rnd_exact m k : 0 <= m <= 2 ^ 24 -> 0 <= k -> rnd (m * 2 ^ k) 1 = m * 2 ^ k.
Proof.
  intros M K. pose proof (Z.pow_pos_nonneg 2 k ltac:(lia) K) as P.
  destruct (log_cases (m * 2 ^ k) 1 ltac:(nia) ltac:(lia)) as [L|(j & J & L)].
  - rewrite rnd_small by nia. rewrite <- (Z.mul_1_r (m * 2 ^ k)) at 1. apply nearest_int; nia.
  - rewrite (rnd_big _ _ j) by (assumption || lia). rewrite Z.mul_1_l.
    destruct (Z_le_gt_dec (j - 23) k) as [C|C].
    + assert (E : 2 ^ k = 2 ^ (k - (j - 23)) * 2 ^ (j - 23)) by (rewrite <- pow_split by lia; f_equal; lia).
      rewrite E, Z.mul_assoc. rewrite nearest_int; [reflexivity| |apply Z.pow_pos_nonneg; lia]. pose proof (Z.pow_pos_nonneg 2 (k - (j - 23)) ltac:(lia) ltac:(lia)). nia.
    + (* then m is 2^24 *)
      assert (E : j = k + 24).
      { assert (B : 2 ^ j <= 2 ^ (24 + k)) by (rewrite pow_split by lia; nia). apply Z.pow_le_mono_r_iff in B; lia. }
      subst j. assert (Em : m = 2 ^ 24). { replace (k + 24) with (24 + k) in L by lia. rewrite pow_split in L by lia. nia. }
      subst m. replace (k + 24 - 23) with (k + 1) by lia. replace (2 ^ 24 * 2 ^ k) with (2 ^ 23 * 2 ^ (k + 1)) by (rewrite (pow_split k 1) by lia; change (2 ^ 24) with (2 ^ 23 * 2 ^ 1); lia).
      rewrite nearest_int; [reflexivity|lia|apply Z.pow_pos_nonneg; lia].
Qed.

Lemma rnd_0 d : 0 < d -> rnd 0 d = 0.
Proof. intro D. rewrite rnd_small by lia. exact (nearest_int 0 d ltac:(lia) D). Qed.

(** ** Values *)
Definition val (x : spec_float) : num :=
  match x with
  | S754_nan => NaN
  | S754_infinity s => Inf s
  | S754_zero s => Fin s 0
  | S754_finite s m e => Fin s (Zpos m * 2 ^ (e + 149))
  end.
(** A number in its normal form: 24 bits, or the least exponent. *)
Definition ok (x : spec_float) : Prop := valid_binary 24 128 x = true.
Lemma ok_finite s m e : ok (S754_finite s m e) <-> fx (Zdigits2 (Zpos m) + e) = e /\ e <= 104.
Proof.
  unfold ok, valid_binary, bounded, canonical_mantissa. cbn [Zdigits2]. rewrite andb_true_iff, Z.leb_le. change (128 - 24) with 104.
  pose proof (Zeq_is_eq_bool (fx (Zpos (digits2_pos m) + e)) e). tauto.
Qed.

(** The magnitude of (n/d) 2^e in units of 2^-149. *)
Definition up (e : Z) : Z := 2 ^ Z.max 0 (e + 149).
Definition down (e : Z) : Z := 2 ^ Z.max 0 (- (e + 149)).
Lemma rep_loc n d m l : rep n d (shr_record_of_loc m l) -> m = n / d /\ 0 <= n /\ 0 < d.
Proof. intros (N & D & M & _). destruct l as [|[| |]]; cbn in M; auto. Qed.

Lemma round_aux s n d m e l :
  rep n d (shr_record_of_loc m l) -> e <= fx (Zdigits2 m + e) ->
  let x := binary_round_aux 24 128 s m e l in
  ok x /\ val x = rounded s (n * up e) (d * down e).
Proof.
  intros R E. destruct (rep_loc _ _ _ _ R) as (M & N & D). cbv zeta. unfold binary_round_aux, shr_fexp.
  set (k := fx (Zdigits2 m + e) - e). destruct (shr_rep n d _ e k R ltac:(lia)) as (y & -> & Y).
  rewrite (rep_nearest _ _ _ Y). pose proof (Z.pow_pos_nonneg 2 k ltac:(lia) ltac:(lia)) as KP.
  set (M1 := nearest n (d * 2 ^ k)).
  pose proof (Z.div_pos n d N D) as MP. pose proof (Z.mul_div_le n d D) as ML. pose proof (Z.mul_succ_div_gt n d D) as MU. rewrite <- M in MP, ML, MU.
  (* the exponent after the first shift *)
  set (e1 := e + k). assert (E1 : e1 = Z.max (Zdigits2 m + e - 24) (-149)) by (unfold e1, k; rewrite fx_eq; lia).
  (* range of the rounded mantissa *)
  assert (RM : 0 <= M1 <= 2 ^ 24 /\ (-149 < e1 -> 2 ^ 23 <= M1) /\ M1 * 2 ^ (e1 + 149) = rnd (n * up e) (d * down e)).
  { destruct (Z.eq_dec m 0) as [M0|M0].
    - rewrite M0 in *. cbn [Zdigits2] in *. assert (e <= -149) by (rewrite fx_eq in E; lia). assert (e1 = -149) by lia.
      assert (Ek : k = -149 - e) by lia.
      assert (L : n < 1 * (d * 2 ^ k)) by nia.
      split; [apply nearest_range; nia|]. split; [lia|]. replace (e1 + 149) with 0 by lia. rewrite Z.mul_1_r.
      unfold up, down. rewrite Z.max_l, Z.max_r by lia. replace (- (e + 149)) with k by lia. change (2 ^ 0) with 1. rewrite Z.mul_1_r.
      symmetry. apply rnd_small; nia.
    - destruct (digits_bounds m ltac:(lia)) as (G & B). set (g := Zdigits2 m) in *.
      assert (N1 : 2 ^ (g - 1) * d <= n < 2 ^ g * d) by nia.
      destruct (Z_le_gt_dec (g + e - 24) (-149)) as [C|C].
      + (* subnormal or the least binade *)
        assert (e1 = -149) by lia. assert (Ek : k = -149 - e) by lia.
        assert (P : 2 ^ g <= 2 ^ 24 * 2 ^ k) by (rewrite <- pow_split by lia; apply Z.pow_le_mono_r; lia).
        assert (L : n < 2 ^ 24 * (d * 2 ^ k)) by nia.
        split; [apply nearest_range; nia|]. split; [lia|]. replace (e1 + 149) with 0 by lia. rewrite Z.mul_1_r.
        unfold up, down. rewrite Z.max_l, Z.max_r by lia. replace (- (e + 149)) with k by lia. change (2 ^ 0) with 1. rewrite Z.mul_1_r.
        symmetry. apply rnd_small; nia.
      + assert (e1 = g + e - 24) by lia. assert (Ek : k = g - 24) by lia.
        assert (P1 : 2 ^ (g - 1) = 2 ^ 23 * 2 ^ k) by (rewrite <- pow_split by lia; f_equal; lia).
        assert (P2 : 2 ^ g = 2 ^ 24 * 2 ^ k) by (rewrite <- pow_split by lia; f_equal; lia).
        assert (RR : 2 ^ 23 <= M1 <= 2 ^ 24) by (apply nearest_range; nia).
        split; [lia|]. split; [lia|].
        assert (UP : 0 < up e) by (apply Z.pow_pos_nonneg; lia). assert (DP : 0 < down e) by (apply Z.pow_pos_nonneg; lia).
        set (j := g + e + 148). assert (UD : 2 ^ j * down e = 2 ^ (g - 1) * up e).
        { unfold up, down. rewrite <- !pow_split by lia. f_equal. lia. }
        assert (UD2 : 2 ^ (j + 1) * down e = 2 ^ g * up e).
        { unfold up, down. rewrite <- !pow_split by lia. f_equal. lia. }
        rewrite (rnd_big _ _ j); [|nia|lia|].
        * replace (j - 23) with (e1 + 149) by lia. f_equal. unfold M1. symmetry.
          assert (X : down e * 2 ^ (e1 + 149) = 2 ^ k * up e).
          { unfold up, down. rewrite <- !pow_split by lia. f_equal. lia. }
          replace (d * down e * 2 ^ (e1 + 149)) with (d * 2 ^ k * up e) by nia. apply nearest_scale; nia.
        * split.
          -- replace (2 ^ j * (d * down e)) with (2 ^ (g - 1) * d * up e) by nia. apply Z.mul_le_mono_nonneg_r; lia.
          -- replace (2 ^ (j + 1) * (d * down e)) with (2 ^ g * d * up e) by nia. apply Z.mul_lt_mono_pos_r; lia. }
  destruct RM as (R1 & R2 & R3). clearbody M1. unfold rounded. cbv zeta. rewrite <- R3.
  assert (E1L : -149 <= e1) by lia. clearbody e1. clear - R1 R2 E1L.
  destruct (Z.eq_dec M1 0) as [Z0'|NZ].
  { subst M1. cbn [shr_record_of_loc Zdigits2]. rewrite fx_eq. replace (Z.max (0 + e1 - 24) (-149) - e1) with (- (e1 + 149)) by lia.
    assert (E : e1 = -149) by (destruct (Z.eq_dec e1 (-149)); [assumption|lia]). subst e1. cbn. split; reflexivity. }
  destruct (Z.eq_dec M1 (2 ^ 24)) as [T|NT].
  { subst M1. clear R2 NZ. cbn [shr_record_of_loc]. change (Zdigits2 (2 ^ 24)) with 25. rewrite fx_eq.
    replace (Z.max (25 + e1 - 24) (-149) - e1) with 1 by lia. cbn [shr]. change (iter_pos shr_1 1 _) with {| shr_m := 2 ^ 23; shr_r := false; shr_s := false |}.
    cbv iota beta. cbn [shr_m]. change (2 ^ 23) with (Zpos (2 ^ 23)) at 1. cbv iota. change (128 - 24) with 104.
    assert (V : 2 ^ 24 * 2 ^ (e1 + 149) = 2 ^ (24 + (e1 + 149))) by (rewrite <- pow_split by lia; reflexivity).
    destruct (Z.leb_spec (e1 + 1) 104) as [C|C].
    - rewrite V. destruct (Z.ltb_spec (2 ^ (24 + (e1 + 149))) limit) as [L|L].
      + split; [apply ok_finite; rewrite fx_eq; change (Zdigits2 (Zpos (2 ^ 23))) with 24; lia|]. apply (f_equal (Fin s)).
        transitivity (2 ^ 23 * 2 ^ (e1 + 1 + 149)); [reflexivity|]. rewrite <- pow_split by lia. f_equal. lia.
      + exfalso. unfold limit in L. apply Z.pow_le_mono_r_iff in L; lia.
    - rewrite V. destruct (Z.ltb_spec (2 ^ (24 + (e1 + 149))) limit) as [L|L].
      + exfalso. unfold limit in L. apply Z.pow_lt_mono_r_iff in L; lia.
      + split; reflexivity. }
  assert (P : 0 < M1 < 2 ^ 24) by lia. destruct (digits_bounds M1 ltac:(lia)) as (G & B).
  assert (G24 : Zdigits2 M1 <= 24).
  { destruct (Z_le_gt_dec (Zdigits2 M1) 24) as [|C]; [assumption|]. pose proof (Z.pow_le_mono_r 2 24 (Zdigits2 M1 - 1) ltac:(lia) ltac:(lia)). lia. }
  assert (FX : fx (Zdigits2 M1 + e1) = e1).
  { rewrite fx_eq. destruct (Z.eq_dec e1 (-149)) as [|NE]; [lia|]. specialize (R2 ltac:(lia)).
    replace (Zdigits2 M1) with 24 by (symmetry; apply digits_unique; [change (24 - 1) with 23|]; lia). lia. }
  destruct M1 as [|p|p]; try lia. rewrite FX, Z.sub_diag. cbn [shr shr_record_of_loc shr_m]. change (128 - 24) with 104.
  pose proof (Z.pow_pos_nonneg 2 (e1 + 149) ltac:(lia) ltac:(lia)) as PP.
  destruct (Z.leb_spec e1 104) as [C|C].
  - assert (L : Zpos p * 2 ^ (e1 + 149) < limit).
    { unfold limit. pose proof (Z.pow_le_mono_r 2 (24 + (e1 + 149)) 277 ltac:(lia) ltac:(lia)) as Q. rewrite pow_split in Q by lia. nia. }
    apply Z.ltb_lt in L. rewrite L. split; [apply ok_finite; auto|reflexivity].
  - specialize (R2 ltac:(lia)).
    assert (L : limit <= Zpos p * 2 ^ (e1 + 149)).
    { unfold limit. pose proof (Z.pow_le_mono_r 2 277 (23 + (e1 + 149)) ltac:(lia) ltac:(lia)) as Q. rewrite pow_split in Q by lia. nia. }
    apply Z.ltb_ge in L. rewrite L. split; reflexivity.
Qed.

(** ** The operations *)
Theorem mul_ok x y : ok x -> ok y -> ok (SFmul 24 128 x y) /\ val (SFmul 24 128 x y) = n_mul (val x) (val y).
Proof.
  intros X Y. destruct x as [sx|sx| |sx mx ex], y as [sy|sy| |sy my ey]; try (split; reflexivity).
  - split; [reflexivity|]. cbn [SFmul val n_mul]. pose proof (Z.pow_pos_nonneg 2 (ey + 149)). apply ok_finite in Y. rewrite fx_eq in Y.
    destruct (Z.eqb_spec (Zpos my * 2 ^ (ey + 149)) 0); [nia|reflexivity].
  - split; [reflexivity|]. cbn [SFmul val n_mul]. rewrite Z.mul_0_r. reflexivity.
  - split; [reflexivity|]. cbn [SFmul val n_mul]. pose proof (Z.pow_pos_nonneg 2 (ex + 149)). apply ok_finite in X. rewrite fx_eq in X.
    destruct (Z.eqb_spec (Zpos mx * 2 ^ (ex + 149)) 0); [nia|]. rewrite xorb_comm. reflexivity.
  - apply ok_finite in X, Y. rewrite fx_eq in X, Y. cbn [SFmul val n_mul]. 
    destruct (digits_bounds (Zpos mx) ltac:(lia)) as (Gx & Bx). destruct (digits_bounds (Zpos my) ltac:(lia)) as (Gy & By).
    assert (G : Zdigits2 (Zpos mx) + Zdigits2 (Zpos my) - 1 <= Zdigits2 (Zpos (mx * my))).
    { destruct (digits_bounds (Zpos (mx * my)) ltac:(lia)) as (G & B).
      assert (Q : 2 ^ (Zdigits2 (Zpos mx) - 1 + (Zdigits2 (Zpos my) - 1)) < 2 ^ Zdigits2 (Zpos (mx * my))) by (rewrite pow_split by lia; nia).
      apply Z.pow_lt_mono_r_iff in Q; lia. }
    destruct (round_aux (xorb sx sy) (Zpos (mx * my)) 1 (Zpos (mx * my)) (ex + ey) loc_Exact) as [O V].
    + unfold rep. cbn [shr_record_of_loc shr_m shr_r shr_s]. rewrite Z.div_1_r, Z.mod_1_r. lia.
    + rewrite fx_eq. lia.
    + split; [exact O|]. rewrite V. unfold rounded. cbv zeta.
      assert (Q : rnd (Zpos (mx * my) * up (ex + ey)) (1 * down (ex + ey)) = rnd (Zpos mx * 2 ^ (ex + 149) * (Zpos my * 2 ^ (ey + 149))) unit).
      { assert (0 < up (ex + ey)) by (apply Z.pow_pos_nonneg; lia). assert (0 < down (ex + ey)) by (apply Z.pow_pos_nonneg; lia).
        pose proof (Z.pow_pos_nonneg 2 (ex + 149) ltac:(lia) ltac:(lia)). pose proof (Z.pow_pos_nonneg 2 (ey + 149) ltac:(lia) ltac:(lia)).
        assert (U : up (ex + ey) * unit = 2 ^ (ex + 149) * 2 ^ (ey + 149) * down (ex + ey)).
        { unfold up, down, unit. rewrite <- !pow_split by lia. f_equal. lia. }
        apply rnd_eq; unfold unit in *; try nia. }
      rewrite Q. reflexivity.
Qed.

Lemma align_val m e e' : e' <= e -> Zpos (fst (shl_align m e e')) = Zpos m * 2 ^ (e - e').
Proof.
  intro H. unfold shl_align. destruct (e' - e) as [|p|p] eqn:D; try lia.
  - replace (e - e') with 0 by lia. cbn [fst]. lia.
  - cbn [fst]. rewrite shift_pos_correct. replace (e - e') with (Zpos p) by lia. rewrite Z.pow_pos_fold. lia.
Qed.
Lemma cond_signed s z : cond_Zopp s z = signed s z.
Proof. destruct s; reflexivity. Qed.
Lemma normalize_ok z e : -149 <= e -> z <> 0 ->
  ok (binary_normalize 24 128 z e false) /\
  val (binary_normalize 24 128 z e false) = rounded (z <? 0) (Z.abs (z * 2 ^ (e + 149))) 1.
Proof.
  intros E Z.
  assert (A : forall s p, ok (binary_round 24 128 s p e) /\ val (binary_round 24 128 s p e) = rounded s (Zpos p * 2 ^ (e + 149)) 1).
  { intros s p. unfold binary_round. set (e' := fx (Zpos (digits2_pos p) + e)).
    change (Zpos (digits2_pos p)) with (Zdigits2 (Zpos p)) in e'.
    destruct (Z_le_gt_dec e' e) as [C|C].
    - pose proof (align_val p e e' C) as V. unfold shl_align in *. assert (EE : -149 <= e') by (unfold e'; rewrite fx_eq; lia).
      assert (W : (match e' - e with Zneg d => (shift_pos d p, e') | _ => (p, e) end) = (fst (match e' - e with Zneg d => (shift_pos d p, e') | _ => (p, e) end), e')).
      { destruct (e' - e) eqn:D; try lia; cbn [fst]; [f_equal; lia|reflexivity]. }
      rewrite W. set (mz := fst (match e' - e with Zneg d => (shift_pos d p, e') | _ => (p, e) end)) in *.
      destruct (digits_bounds (Zpos p) ltac:(lia)) as (G & B).
      assert (DG : Zdigits2 (Zpos mz) = Zdigits2 (Zpos p) + (e - e')).
      { apply digits_unique; [|lia]. rewrite V. pose proof (Z.pow_pos_nonneg 2 (e - e') ltac:(lia) ltac:(lia)).
        replace (Zdigits2 (Zpos p) + (e - e') - 1) with (Zdigits2 (Zpos p) - 1 + (e - e')) by lia. rewrite !pow_split by lia. nia. }
      destruct (round_aux s (Zpos mz) 1 (Zpos mz) e' loc_Exact) as [O R].
      + unfold rep. cbn [shr_record_of_loc shr_m shr_r shr_s]. rewrite Z.div_1_r, Z.mod_1_r. lia.
      + rewrite DG. replace (Zdigits2 (Zpos p) + (e - e') + e') with (Zdigits2 (Zpos p) + e) by lia. fold e'. lia.
      + split; [exact O|]. rewrite R. f_equal.
        * rewrite V. unfold up. rewrite Z.max_r by lia. rewrite <- Z.mul_assoc, <- pow_split by lia. do 2 f_equal. lia.
        * unfold down. rewrite Z.max_l by lia. reflexivity.
    - assert (W : shl_align p e e' = (p, e)). { unfold shl_align. destruct (e' - e) eqn:D; try reflexivity. lia. }
      rewrite W. destruct (round_aux s (Zpos p) 1 (Zpos p) e loc_Exact) as [O R].
      + unfold rep. cbn [shr_record_of_loc shr_m shr_r shr_s]. rewrite Z.div_1_r, Z.mod_1_r. lia.
      + fold e'. lia.
      + split; [exact O|]. rewrite R. f_equal.
        * unfold up. rewrite Z.max_r by lia. reflexivity.
        * unfold down. rewrite Z.max_l by lia. reflexivity. }
  pose proof (Z.pow_pos_nonneg 2 (e + 149) ltac:(lia) ltac:(lia)).
  destruct z as [|p|p]; [lia| |]; cbn [binary_normalize]; destruct (A false p) as [A1 A2], (A true p) as [A3 A4].
  - split; [assumption|]. rewrite A2. change (Zpos p <? 0) with false. rewrite Z.abs_eq by nia. reflexivity.
  - split; [assumption|]. rewrite A4. change (Zneg p <? 0) with true. rewrite Z.abs_neq by nia. f_equal. lia.
Qed.
Lemma rounded_self s m e : ok (S754_finite s m e) -> rounded s (Zpos m * 2 ^ (e + 149)) 1 = Fin s (Zpos m * 2 ^ (e + 149)).
Proof.
  intro X. apply ok_finite in X. rewrite fx_eq in X. destruct (digits_bounds (Zpos m) ltac:(lia)) as (G & B).
  assert (B24 : Zpos m < 2 ^ 24) by (pose proof (Z.pow_le_mono_r 2 (Zdigits2 (Zpos m)) 24 ltac:(lia) ltac:(lia)); lia).
  unfold rounded. cbv zeta. rewrite rnd_exact by lia. pose proof (Z.pow_pos_nonneg 2 (e + 149) ltac:(lia) ltac:(lia)).
  pose proof (Z.pow_le_mono_r 2 (24 + (e + 149)) 277 ltac:(lia) ltac:(lia)) as Q. rewrite pow_split in Q by lia.
  replace (Zpos m * 2 ^ (e + 149) <? limit) with true by (unfold limit; nia). reflexivity.
Qed.
Theorem add_ok x y : ok x -> ok y -> ok (SFadd 24 128 x y) /\ val (SFadd 24 128 x y) = n_add (val x) (val y).
Proof.
  intros X Y. destruct x as [sx|sx| |sx mx ex], y as [sy|sy| |sy my ey];
    try (split; reflexivity); try (destruct sx, sy; split; reflexivity).
  - split; [exact Y|]. cbn [SFadd val n_add]. pose proof (rounded_self _ _ _ Y) as S. apply ok_finite in Y. rewrite fx_eq in Y.
    pose proof (Z.pow_pos_nonneg 2 (ey + 149) ltac:(lia) ltac:(lia)). set (v := Zpos my * 2 ^ (ey + 149)) in *. assert (0 < v) by nia.
    replace (signed sx 0) with 0 by (destruct sx; reflexivity). rewrite Z.add_0_l.
    replace (signed sy v =? 0) with false by (destruct sy; cbn [signed]; lia). rewrite <- S. f_equal; destruct sy; cbn [signed]; lia.
  - split; [exact X|]. cbn [SFadd val n_add]. pose proof (rounded_self _ _ _ X) as S. apply ok_finite in X. rewrite fx_eq in X.
    pose proof (Z.pow_pos_nonneg 2 (ex + 149) ltac:(lia) ltac:(lia)). set (v := Zpos mx * 2 ^ (ex + 149)) in *. assert (0 < v) by nia.
    replace (signed sy 0) with 0 by (destruct sy; reflexivity). rewrite Z.add_0_r.
    replace (signed sx v =? 0) with false by (destruct sx; cbn [signed]; lia). rewrite <- S. f_equal; destruct sx; cbn [signed]; lia.
  - apply ok_finite in X, Y. rewrite fx_eq in X, Y. cbn [SFadd val n_add]. rewrite !(cond_signed sx), !(cond_signed sy).
    set (ez := Z.min ex ey). rewrite !align_val by lia.
    pose proof (Z.pow_pos_nonneg 2 (ez + 149) ltac:(lia) ltac:(lia)) as P.
    set (s := signed sx (Zpos mx * 2 ^ (ex + 149)) + signed sy (Zpos my * 2 ^ (ey + 149))).
    set (z := signed sx (Zpos mx * 2 ^ (ex - ez)) + signed sy (Zpos my * 2 ^ (ey - ez))).
    assert (S : s = z * 2 ^ (ez + 149)).
    { assert (Ex : 2 ^ (ex + 149) = 2 ^ (ex - ez) * 2 ^ (ez + 149)) by (rewrite <- pow_split by lia; f_equal; lia).
      assert (Ey : 2 ^ (ey + 149) = 2 ^ (ey - ez) * 2 ^ (ez + 149)) by (rewrite <- pow_split by lia; f_equal; lia).
      unfold s, z. rewrite Ex, Ey. destruct sx, sy; cbn [signed]; lia. }
    destruct (Z.eq_dec z 0) as [Z0|NZ].
    + rewrite Z0. cbn [binary_normalize]. split; [reflexivity|]. rewrite S, Z0. cbn [Z.mul Z.eqb val]. f_equal. destruct sx, sy; try reflexivity.
      exfalso. unfold z in Z0. cbn [signed] in Z0. pose proof (Z.pow_pos_nonneg 2 (ex - ez) ltac:(lia) ltac:(lia)). pose proof (Z.pow_pos_nonneg 2 (ey - ez) ltac:(lia) ltac:(lia)). nia.
    + destruct (normalize_ok z ez ltac:(lia) NZ) as [O V]. split; [exact O|]. rewrite V, <- S. replace (s =? 0) with false by nia.
      f_equal. nia.
Qed.
Lemma opp_ok x : ok x -> ok (SFopp x) /\ val (SFopp x) = n_opp (val x).
Proof. intro X. destruct x; split; try reflexivity. exact X. Qed.
Lemma sub_add x y : SFsub 24 128 x y = SFadd 24 128 x (SFopp y).
Proof.
  destruct x as [sx|sx| |sx mx ex], y as [sy|sy| |sy my ey]; try reflexivity.
  - cbn [SFsub SFadd SFopp]. f_equal. destruct sy; cbn [negb cond_Zopp]; lia.
Qed.
Theorem sub_ok x y : ok x -> ok y -> ok (SFsub 24 128 x y) /\ val (SFsub 24 128 x y) = n_sub (val x) (val y).
Proof.
  intros X Y. rewrite sub_add. destruct (opp_ok y Y) as [O V]. destruct (add_ok x _ X O) as [A B]. split; [exact A|].
  rewrite B, V. reflexivity.
Qed.

Lemma location_ok n d : 0 <= n -> 0 < d -> rep n d (shr_record_of_loc (n / d) (new_location d (n mod d))).
Proof.
  intros N D. pose proof (Z.mod_pos_bound n d D) as B. unfold rep, new_location, new_location_even, new_location_odd.
  destruct (Z.even d) eqn:EV.
  - destruct (Zeq_bool (n mod d) 0) eqn:Q; [apply Zeq_bool_eq in Q|apply Zeq_bool_neq in Q].
    + cbn [shr_record_of_loc shr_m shr_r shr_s]. lia.
    + destruct (Z.compare_spec (2 * (n mod d)) d); cbn [shr_record_of_loc shr_m shr_r shr_s]; lia.
  - assert (OD : d mod 2 = 1) by (rewrite Zmod_even, EV; reflexivity).
    destruct (Zeq_bool (n mod d) 0) eqn:Q; [apply Zeq_bool_eq in Q|apply Zeq_bool_neq in Q].
    + cbn [shr_record_of_loc shr_m shr_r shr_s]. lia.
    + destruct (Z.compare_spec (2 * (n mod d) + 1) d); cbn [shr_record_of_loc shr_m shr_r shr_s]; try lia.
      assert (d <> 2 * (n mod d)); [|lia]. intro E. rewrite E in OD. rewrite Z.mul_comm, Z.mod_mul in OD; lia.
Qed.
Theorem div_ok x y : ok x -> ok y -> ok (SFdiv 24 128 x y) /\ val (SFdiv 24 128 x y) = n_div (val x) (val y).
Proof.
  intros X Y. destruct x as [sx|sx| |sx mx ex], y as [sy|sy| |sy my ey]; try (split; reflexivity).
  - split; [reflexivity|]. cbn [SFdiv val n_div]. pose proof (Z.pow_pos_nonneg 2 (ey + 149)). apply ok_finite in Y. rewrite fx_eq in Y.
    assert (V : 0 < Zpos my * 2 ^ (ey + 149)) by nia. set (v := Zpos my * 2 ^ (ey + 149)) in *. replace (v =? 0) with false by lia.
    unfold rounded. cbv zeta. rewrite Z.mul_0_l, rnd_0 by exact V. reflexivity.
  - split; [reflexivity|]. cbn [SFdiv val n_div]. apply ok_finite in X. rewrite fx_eq in X. pose proof (Z.pow_pos_nonneg 2 (ex + 149) ltac:(lia) ltac:(lia)).
    assert (V : 0 < Zpos mx * 2 ^ (ex + 149)) by nia. set (v := Zpos mx * 2 ^ (ex + 149)) in *. cbn [Z.eqb]. replace (v =? 0) with false by lia. reflexivity.
  - apply ok_finite in X, Y. rewrite fx_eq in X, Y. cbn [SFdiv val n_div].
    pose proof (Z.pow_pos_nonneg 2 (ex + 149) ltac:(lia) ltac:(lia)) as PX. pose proof (Z.pow_pos_nonneg 2 (ey + 149) ltac:(lia) ltac:(lia)) as PY.
    assert (PV : (Zpos my * 2 ^ (ey + 149) =? 0) = false) by (apply Z.eqb_neq; nia). rewrite PV. unfold SFdiv_core_binary. cbv zeta.
    destruct (digits_bounds (Zpos mx) ltac:(lia)) as (Gx & Bx). destruct (digits_bounds (Zpos my) ltac:(lia)) as (Gy & By).
    set (dx := Zdigits2 (Zpos mx)) in *. set (dy := Zdigits2 (Zpos my)) in *.
    set (e' := Z.min (fx (dx + ex - (dy + ey))) (ex - ey)). set (s := ex - ey - e').
    assert (S : 0 <= s) by lia. pose proof (Z.pow_pos_nonneg 2 s ltac:(lia) S) as PS.
    assert (M : match s with Z0 => Zpos mx | Zpos _ => Z.shiftl (Zpos mx) s | Zneg _ => 0 end = Zpos mx * 2 ^ s).
    { destruct s as [|p|p] eqn:E; [lia| |lia]. rewrite Z.shiftl_mul_pow2 by lia. reflexivity. }
    rewrite M. set (n := Zpos mx * 2 ^ s). assert (NP : 0 < n) by (unfold n; nia).
    assert (Q : Z.div_eucl n (Zpos my) = (n / Zpos my, n mod Zpos my)).
    { unfold Z.div, Z.modulo. destruct (Z.div_eucl n (Zpos my)). reflexivity. }
    rewrite Q. pose proof (location_ok n (Zpos my) ltac:(lia) ltac:(lia)) as R.
    destruct (round_aux (xorb sx sy) n (Zpos my) (n / Zpos my) e' (new_location (Zpos my) (n mod Zpos my)) R) as [O V].
    + set (q := n / Zpos my) in *. assert (Q0 : 0 <= q) by (apply Z.div_pos; lia).
      assert (G : dx - dy + s <= Zdigits2 q).
      { destruct (Z_le_gt_dec (dx - dy + s) 0) as [C|C].
        - destruct q; cbn [Zdigits2]; lia.
        - assert (T : 2 ^ (dx - dy + s - 1) <= q).
          { apply Z.div_le_lower_bound; [lia|]. 
            assert (W : 2 ^ (dx - 1) * 2 ^ s = 2 ^ dy * 2 ^ (dx - dy + s - 1)) by (rewrite <- !pow_split by lia; f_equal; lia).
            pose proof (Z.pow_pos_nonneg 2 (dx - dy + s - 1) ltac:(lia) ltac:(lia)). unfold n. nia. }
          pose proof (Z.pow_pos_nonneg 2 (dx - dy + s - 1) ltac:(lia) ltac:(lia)).
          destruct (digits_bounds q ltac:(lia)) as (Gq & Bq).
          assert (U : 2 ^ (dx - dy + s - 1) < 2 ^ Zdigits2 q) by lia. apply Z.pow_lt_mono_r_iff in U; lia. }
      assert (Es : s = ex - ey - e') by reflexivity. assert (Ee : e' = Z.min (Z.max (dx + ex - (dy + ey) - 24) (-149)) (ex - ey)) by reflexivity.
      rewrite fx_eq. clearbody s e' q. lia.
    + split; [exact O|]. rewrite V. unfold rounded. cbv zeta.
      assert (E : rnd (n * up e') (Zpos my * down e') = rnd (Zpos mx * 2 ^ (ex + 149) * unit) (Zpos my * 2 ^ (ey + 149))).
      { assert (0 < up e') by (apply Z.pow_pos_nonneg; lia). assert (0 < down e') by (apply Z.pow_pos_nonneg; lia).
        assert (U : 2 ^ s * up e' * 2 ^ (ey + 149) = 2 ^ (ex + 149) * unit * down e').
        { unfold up, down, unit. rewrite <- !pow_split by lia. f_equal. lia. }
        assert (0 < unit) by (apply Z.pow_pos_nonneg; lia).
        apply rnd_eq; [nia|nia|nia|nia|]. unfold n.
        transitivity (Zpos mx * Zpos my * (2 ^ s * up e' * 2 ^ (ey + 149))); [ring|]. rewrite U. ring. }
      rewrite E. reflexivity.
Qed.

(** ** Comparison *)
Lemma cmp_mag m1 e1 m2 e2 s1 s2 : ok (S754_finite s1 m1 e1) -> ok (S754_finite s2 m2 e2) ->
  match Z.compare e1 e2 with Lt => Lt | Gt => Gt | Eq => Pos.compare m1 m2 end =
  Z.compare (Zpos m1 * 2 ^ (e1 + 149)) (Zpos m2 * 2 ^ (e2 + 149)).
Proof.
  assert (A : forall m1 e1 m2 e2 s1 s2, ok (S754_finite s1 m1 e1) -> ok (S754_finite s2 m2 e2) -> e1 < e2 ->
    Zpos m1 * 2 ^ (e1 + 149) < Zpos m2 * 2 ^ (e2 + 149)).
  { clear. intros m1 e1 m2 e2 s1 s2 X Y L. apply ok_finite in X, Y. rewrite fx_eq in X, Y.
    destruct (digits_bounds (Zpos m1) ltac:(lia)) as (G1 & B1). destruct (digits_bounds (Zpos m2) ltac:(lia)) as (G2 & B2).
    pose proof (Z.pow_pos_nonneg 2 (e1 + 149) ltac:(lia) ltac:(lia)). pose proof (Z.pow_pos_nonneg 2 (e2 + 149) ltac:(lia) ltac:(lia)).
    assert (U : 2 ^ (Zdigits2 (Zpos m1)) * 2 ^ (e1 + 149) <= 2 ^ (Zdigits2 (Zpos m2) - 1) * 2 ^ (e2 + 149)).
    { rewrite <- !pow_split by lia. apply Z.pow_le_mono_r; lia. }
    nia. }
  intros X Y. destruct (Z.compare_spec e1 e2) as [E|E|E].
  - subst e2. apply ok_finite in X. rewrite fx_eq in X. pose proof (Z.pow_pos_nonneg 2 (e1 + 149) ltac:(lia) ltac:(lia)).
    rewrite <- Zmult_compare_compat_r by lia. reflexivity.
  - symmetry. apply Z.compare_lt_iff. eapply A; eassumption.
  - symmetry. apply Z.compare_gt_iff. eapply A; eassumption.
Qed.
Lemma cmp_le a b : (match a ?= b with Gt => false | _ => true end) = (a <=? b).
Proof. reflexivity. Qed.
Theorem le_ok x y : ok x -> ok y -> SFleb x y = n_le (val x) (val y).
Proof.
  intros X Y. destruct x as [sx|sx| |sx mx ex], y as [sy|sy| |sy my ey]; try reflexivity;
    try (destruct sx; reflexivity); try (destruct sy; reflexivity); try (destruct sx, sy; reflexivity).
  - cbn [val n_le]. apply ok_finite in Y. rewrite fx_eq in Y. pose proof (Z.pow_pos_nonneg 2 (ey + 149) ltac:(lia) ltac:(lia)).
    unfold SFleb. cbn [SFcompare]. destruct sx, sy; cbn [signed]; symmetry; rewrite ?Z.leb_le, ?Z.leb_gt; nia.
  - cbn [val n_le]. apply ok_finite in X. rewrite fx_eq in X. pose proof (Z.pow_pos_nonneg 2 (ex + 149) ltac:(lia) ltac:(lia)).
    unfold SFleb. cbn [SFcompare]. destruct sx, sy; cbn [signed]; symmetry; rewrite ?Z.leb_le, ?Z.leb_gt; nia.
  - pose proof (cmp_mag mx ex my ey sx sy X Y) as C. cbn [val n_le]. apply ok_finite in X, Y. rewrite fx_eq in X, Y.
    pose proof (Z.pow_pos_nonneg 2 (ex + 149) ltac:(lia) ltac:(lia)). pose proof (Z.pow_pos_nonneg 2 (ey + 149) ltac:(lia) ltac:(lia)).
    unfold SFleb. cbn [SFcompare].
    set (u := Zpos mx * 2 ^ (ex + 149)) in *. set (v := Zpos my * 2 ^ (ey + 149)) in *. assert (0 < u) by nia. assert (0 < v) by nia.
    change (Pcompare mx my Eq) with (Pos.compare mx my).
    destruct sx, sy; cbn [signed].
    + replace (match (ex ?= ey) with Eq => CompOpp (mx ?= my)%positive | Lt => Gt | Gt => Lt end) with (CompOpp (u ?= v)).
      * destruct (Z.compare_spec u v); cbn [CompOpp]; symmetry; rewrite ?Z.leb_le, ?Z.leb_gt; lia.
      * rewrite <- C. destruct (ex ?= ey); reflexivity.
    + symmetry. apply Z.leb_le. lia.
    + symmetry. apply Z.leb_gt. lia.
    + rewrite C. unfold Z.leb. destruct (u ?= v); reflexivity.
Qed.

Theorem lt_ok x y : ok x -> ok y -> SFltb x y = n_lt (val x) (val y).
Proof.
  intros X Y. pose proof (le_ok y x Y X) as L.
  assert (E : SFltb x y = match x, y with S754_nan, _ | _, S754_nan => false | _, _ => negb (SFleb y x) end).
  { assert (A : forall a b, SFcompare b a = match SFcompare a b with Some c => Some (CompOpp c) | None => None end).
    { intros a b. destruct a as [[]|[]| |[] ma ea], b as [[]|[]| |[] mb eb]; try reflexivity; cbn [SFcompare];
        rewrite (Z.compare_antisym ea eb); destruct (ea ?= eb); try reflexivity; cbn [CompOpp];
        change (Pcompare mb ma Eq) with (Pos.compare mb ma); change (Pcompare ma mb Eq) with (Pos.compare ma mb);
        rewrite (Pos.compare_antisym ma mb); destruct (ma ?= mb)%positive; reflexivity. }
    unfold SFltb, SFleb. rewrite (A x y). destruct (SFcompare x y) as [[| |]|] eqn:C; destruct x, y; try reflexivity; discriminate C. }
  rewrite E, L. destruct x, y; reflexivity.
Qed.
