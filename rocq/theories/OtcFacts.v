(** * Facts about the trading desk's arithmetic *)
Require Import ZArith List Bool Lia.
From Coq Require Import Floats.SpecFloat.
Require Import Verif.Word Verif.FloatSpec Verif.FloatFacts Verif.Otc Verif.OtcSpec.
Import ListNotations.
Ltac Zify.zify_post_hook ::= idtac.
Open Scope Z_scope.

Lemma unit_pos : 0 < unit. Proof. reflexivity. Qed.
Lemma limit_pos : 0 < limit. Proof. reflexivity. Qed.
Global Opaque unit limit.

(** ** Relative errors: [x] is p/q after [k] roundings *)
Definition near (k : Z) (x p q : Z) : Prop :=
  (2 ^ 24 - 1) ^ k * p <= x * q * (2 ^ 24) ^ k /\ x * q * (2 ^ 24) ^ k <= (2 ^ 24 + 1) ^ k * p.

Lemma nearest_half n d : 0 <= n -> 0 < d -> n - nearest n d * d <= d / 2 /\ 2 * (nearest n d * d - n) <= d /\ 2 * (n - nearest n d * d) <= d.
Proof.
  intros N D. unfold nearest. cbv zeta. pose proof (Z.div_mod n d ltac:(lia)) as E. pose proof (Z.mod_pos_bound n d D) as B.
  set (q := n / d) in *. set (r := n mod d) in *. clearbody q r.
  assert (H : forall x, 2 * x <= d -> x <= d / 2) by (intros; apply Z.div_le_lower_bound; lia).
  destruct (2 * r <? d) eqn:A; [|destruct (2 * r >? d) eqn:C; [|destruct (Z.even q)]]; (split; [apply H; nia|split; nia]).
Qed.
(** A result with 24 bits or more loses at most one part in 2^24. *)
Lemma rnd_near n d : 0 < d -> 2 ^ 23 * d <= n -> near 1 (rnd n d) n d.
Proof.
  intros D H. unfold near. rewrite !Z.pow_1_r.
  destruct (log_cases n d ltac:(nia) D) as [L|(j & J & L)].
  - rewrite rnd_small by nia. destruct (nearest_half n d ltac:(nia) D) as (_ & A & B). nia.
  - rewrite (rnd_big n d j) by assumption.
    pose proof (pow_split 23 (j - 23) ltac:(lia) ltac:(lia)) as E. replace (23 + (j - 23)) with j in E by lia.
    pose proof (Z.pow_pos_nonneg 2 (j - 23) ltac:(lia) ltac:(lia)) as P. set (u := 2 ^ (j - 23)) in *. clearbody u.
    destruct (nearest_half n (d * u) ltac:(nia) ltac:(nia)) as (_ & A & B). rewrite E in L. nia.
Qed.
Lemma near_step k x p q n d a b : 0 <= k -> near k x p q -> 0 < d -> 0 < a -> 0 < b -> 0 < q -> 0 < p -> 2 ^ 23 * d <= n -> n * b = x * a * d ->
  near (k + 1) (rnd n d) (p * a) (q * b).
Proof.
  intros K (A & B) D Pa Pb Q P H E. destruct (rnd_near n d D H) as (C1 & C2). rewrite !Z.pow_1_r in *.
  unfold near. rewrite !Z.pow_add_r, !Z.pow_1_r by lia.
  pose proof (Z.pow_pos_nonneg (2 ^ 24 - 1) k ltac:(lia) K) as P1. pose proof (Z.pow_pos_nonneg (2 ^ 24) k ltac:(lia) K) as P2.
  pose proof (Z.pow_pos_nonneg (2 ^ 24 + 1) k ltac:(lia) K) as P3.
  set (lo := (2 ^ 24 - 1) ^ k) in *. set (un := (2 ^ 24) ^ k) in *. set (hi := (2 ^ 24 + 1) ^ k) in *. set (y := rnd n d) in *.
  clearbody lo un hi y. change (2 ^ 24 - 1) with 16777215 in *. change (2 ^ 24 + 1) with 16777217 in *. change (2 ^ 24) with 16777216 in *.
  (* multiply by d > 0 *)
  split; apply (Z.mul_le_mono_pos_r _ _ d); try assumption.
  - apply Z.le_trans with (16777215 * n * (q * b) * un).
    + replace (16777215 * n * (q * b) * un) with (16777215 * (n * b) * q * un) by ring. rewrite E.
      replace (16777215 * (x * a * d) * q * un) with (16777215 * a * d * (x * q * un)) by ring.
      replace (lo * 16777215 * (p * a) * d) with (16777215 * a * d * (lo * p)) by ring. apply Z.mul_le_mono_nonneg_l; nia.
    + replace (y * (q * b) * (un * 16777216) * d) with (y * d * 16777216 * (q * b) * un) by ring.
      apply Z.mul_le_mono_nonneg_r; [lia|]. apply Z.mul_le_mono_nonneg_r; [nia|]. exact C1.
  - apply Z.le_trans with (16777217 * n * (q * b) * un).
    + replace (y * (q * b) * (un * 16777216) * d) with (y * d * 16777216 * (q * b) * un) by ring.
      apply Z.mul_le_mono_nonneg_r; [lia|]. apply Z.mul_le_mono_nonneg_r; [nia|]. exact C2.
    + replace (16777217 * n * (q * b) * un) with (16777217 * (n * b) * q * un) by ring. rewrite E.
      replace (16777217 * (x * a * d) * q * un) with (16777217 * a * d * (x * q * un)) by ring.
      replace (hi * 16777217 * (p * a) * d) with (16777217 * a * d * (hi * p)) by ring. apply Z.mul_le_mono_nonneg_l; nia.
Qed.

(** ** The factors *)
Definition sizes : list Z := [10; 15; 25].
Definition discs : list Z := [7; 9; 10].
Definition coef (c : client) (s d : Z) : f32 := f_mul (f_mul (base_spread c) (lit s 10)) (lit d 10).
Definition near_b (k x p q : Z) : bool :=
  ((2 ^ 24 - 1) ^ k * p <=? x * q * (2 ^ 24) ^ k) && (x * q * (2 ^ 24) ^ k <=? (2 ^ 24 + 1) ^ k * p).
Definition coef_val (c : client) (s d : Z) : Z := match val (coef c s d) with Fin _ v => v | _ => 0 end.
Lemma coef_ok c s d : In s sizes -> In d discs ->
  ok (coef c s d) /\ val (coef c s d) = Fin false (coef_val c s d) /\ near 2 (coef_val c s d) (spread_of c * s * d * unit) 100 /\
  7 * unit <= coef_val c s d <= 250 * unit.
Proof.
  intros S D.
  assert (H : (valid_binary 24 128 (coef c s d) && match val (coef c s d) with Fin false _ => true | _ => false end
     && near_b 2 (coef_val c s d) (spread_of c * s * d * unit) 100 && (7 * unit <=? coef_val c s d) && (coef_val c s d <=? 250 * unit)) = true).
  { cbn [In sizes discs] in S, D. destruct S as [<-|[<-|[<-|[]]]], D as [<-|[<-|[<-|[]]]], c; vm_compute; reflexivity. }
  rewrite !andb_true_iff in H. destruct H as ((((H1 & H2) & H3) & H4) & H5).
  unfold near_b in H3. apply andb_true_iff in H3 as [H3 H3']. apply Z.leb_le in H3, H3', H4, H5.
  split; [exact H1|]. split; [|split; [split; assumption|lia]].
  unfold coef_val in *. destruct (val (coef c s d)) as [| |[] v]; try discriminate. reflexivity.
Qed.
(** larger factors, larger coefficients; likewise the clients' *)
Lemma coef_mono c s d s' d' : In s sizes -> In d discs -> In s' sizes -> In d' discs -> s <= s' -> d <= d' -> coef_val c s d <= coef_val c s' d'.
Proof.
  intros S D S' D' L L'. apply Z.leb_le. cbn [In sizes discs] in S, D, S', D'.
  destruct S as [<-|[<-|[<-|[]]]], D as [<-|[<-|[<-|[]]]], S' as [<-|[<-|[<-|[]]]], D' as [<-|[<-|[<-|[]]]]; try lia; destruct c; vm_compute; reflexivity.
Qed.
Definition rank (c : client) : Z := match c with PRIME => 0 | INSTITUTIONAL => 1 | RETAIL => 2 end.
Lemma coef_rank c c' s d d' : In s sizes -> In d discs -> In d' discs -> rank c <= rank c' -> d <= d' -> coef_val c s d <= coef_val c' s d'.
Proof.
  intros S D D' L L'. apply Z.leb_le. cbn [In sizes discs] in S, D, D'.
  destruct S as [<-|[<-|[<-|[]]]], D as [<-|[<-|[<-|[]]]], D' as [<-|[<-|[<-|[]]]]; try lia; destruct c, c'; cbn [rank] in L; try lia; vm_compute; reflexivity.
Qed.

(** The factors of a trade, in tenths. *)
Definition size_tenths (amount : f32) (m : market) : Z :=
  let p := f_div amount (window_volume m) in
  if f_le p (lit 1 100) then 10 else if f_le p (lit 5 100) then 15 else 25.
Definition disc_tenths (c : client) (amount : f32) : Z :=
  match c with
  | RETAIL => 10
  | _ => if f_gt amount (lit 10 1) then 7 else if f_gt amount (lit 5 1) then 9 else 10
  end.
Lemma size_in a m : In (size_tenths a m) sizes.
Proof. unfold size_tenths. cbv zeta. destruct (f_le (f_div a (window_volume m)) (lit 1 100)), (f_le (f_div a (window_volume m)) (lit 5 100)); cbn; tauto. Qed.
Lemma disc_in c a : In (disc_tenths c a) discs.
Proof. unfold disc_tenths. destruct c, (f_gt a (lit 10 1)), (f_gt a (lit 5 1)); cbn; tauto. Qed.
Lemma size_lit a m : size_adj a m = lit (size_tenths a m) 10.
Proof. unfold size_adj, size_tenths. cbv zeta. destruct (f_le (f_div a (window_volume m)) (lit 1 100)), (f_le (f_div a (window_volume m)) (lit 5 100)); vm_compute; reflexivity. Qed.
Lemma disc_lit c a : volume_disc c a = lit (disc_tenths c a) 10.
Proof. unfold volume_disc, disc_tenths. destruct c, (f_gt a (lit 10 1)), (f_gt a (lit 5 1)); vm_compute; reflexivity. Qed.

Lemma lit_int n : In n [2; 5; 10; 10000] -> ok (lit n 1) /\ val (lit n 1) = Fin false (n * unit).
Proof. intro H. cbn [In] in H. destruct H as [<-|[<-|[<-|[<-|[]]]]]; split; vm_compute; reflexivity. Qed.

(** The prices as numbers, for a coefficient of value [k]. *)
Definition half_num (k : Z) (vol mid : num) : num :=
  n_div (n_mul (n_div (n_mul (Fin false k) vol) (Fin false (10000 * unit))) mid) (Fin false (2 * unit)).
Lemma quote_val c a m : ok (mid_price m) -> ok (volatility m) ->
  let h := half_num (coef_val c (size_tenths a m) (disc_tenths c a)) (val (volatility m)) (val (mid_price m)) in
  ok (fst (quote c a m)) /\ ok (snd (quote c a m)) /\
  val (fst (quote c a m)) = n_add (val (mid_price m)) h /\ val (snd (quote c a m)) = n_sub (val (mid_price m)) h.
Proof.
  intros M V. cbv zeta. unfold quote. cbv zeta. cbn [fst snd]. rewrite size_lit, disc_lit. fold (coef c (size_tenths a m) (disc_tenths c a)).
  destruct (coef_ok c _ _ (size_in a m) (disc_in c a)) as (C & CV & _).
  destruct (mul_ok _ _ C V) as (A1 & B1). rewrite CV in B1.
  destruct (lit_int 10000) as (L1 & L2); [cbn; tauto|]. destruct (lit_int 2) as (L3 & L4); [cbn; tauto|].
  destruct (div_ok _ _ A1 L1) as (A2 & B2). rewrite B1, L2 in B2.
  destruct (mul_ok _ _ A2 M) as (A3 & B3). rewrite B2 in B3.
  destruct (div_ok _ _ A3 L3) as (A4 & B4). rewrite B3, L4 in B4.
  destruct (add_ok _ _ M A4) as (A5 & B5). destruct (sub_ok _ _ M A4) as (A6 & B6). rewrite B4 in B5, B6.
  repeat split; assumption.
Qed.

(** ** Monotonicity *)
Lemma rounded_fin n d : rnd n d < limit -> rounded false n d = Fin false (rnd n d).
Proof. intro H. unfold rounded. cbv zeta. replace (rnd n d <? limit) with true by lia. reflexivity. Qed.
Lemma rnd_upper n d m k : 0 <= n -> 0 < d -> 0 <= m <= 2 ^ 24 -> 0 <= k -> n <= m * 2 ^ k * d -> rnd n d <= m * 2 ^ k.
Proof. intros N D M K H. rewrite <- (rnd_exact m k M K). pose proof (Z.pow_pos_nonneg 2 k ltac:(lia) K). apply rnd_mono; nia. Qed.
Lemma rnd_lower n d m k : 0 <= n -> 0 < d -> 0 <= m <= 2 ^ 24 -> 0 <= k -> m * 2 ^ k * d <= n -> m * 2 ^ k <= rnd n d.
Proof. intros N D M K H. rewrite <- (rnd_exact m k M K) at 1. pose proof (Z.pow_pos_nonneg 2 k ltac:(lia) K). apply rnd_mono; nia. Qed.
Lemma unit_eq : unit = 2 ^ 149. Proof. reflexivity. Qed.
Lemma limit_eq : limit = 2 ^ 277. Proof. reflexivity. Qed.

Definition pos_num (x : num) : Prop := (exists v, x = Fin false v /\ 0 <= v < limit) \/ x = Inf false.
Lemma rounded_pos n d : 0 <= n -> 0 < d -> pos_num (rounded false n d).
Proof.
  intros N D. unfold rounded. cbv zeta. pose proof (rnd_nonneg n d N D). destruct (Z.ltb_spec (rnd n d) limit); [left|right; reflexivity].
  eexists. split; [reflexivity|]. lia.
Qed.
Lemma rounded_le n d n' d' : 0 <= n -> 0 < d -> 0 <= n' -> 0 < d' -> n * d' <= n' * d -> n_le (rounded false n d) (rounded false n' d') = true.
Proof.
  intros N D N' D' H. pose proof (rnd_mono n d n' d' N D N' D' H). unfold rounded. cbv zeta.
  destruct (Z.ltb_spec (rnd n d) limit), (Z.ltb_spec (rnd n' d') limit); cbn [n_le signed negb orb]; lia.
Qed.
Lemma div_pos_num x k : pos_num x -> 0 < k -> pos_num (n_div x (Fin false k)).
Proof.
  intros [(v & -> & B)| ->] K; cbn [n_div xorb].
  - replace (k =? 0) with false by lia. apply rounded_pos; [pose proof unit_pos; nia|lia].
  - right. reflexivity.
Qed.
Lemma div_le x y k : pos_num x -> pos_num y -> 0 < k -> n_le x y = true -> n_le (n_div x (Fin false k)) (n_div y (Fin false k)) = true.
Proof.
  pose proof unit_pos as U.
  intros [(v & -> & B)| ->] [(w & -> & C)| ->] K L; cbn [n_div xorb n_le signed] in *; replace (k =? 0) with false by lia.
  - apply Z.leb_le in L. apply rounded_le; try nia. do 2 (apply Z.mul_le_mono_nonneg_r; [lia|]). exact L.
  - destruct (rounded_pos (v * unit) k ltac:(nia) K) as [(z & -> & _)| ->]; reflexivity.
  - discriminate.
  - reflexivity.
Qed.
Lemma add_le m x y : 0 <= m -> pos_num x -> pos_num y -> n_le x y = true -> n_le (n_add (Fin false m) x) (n_add (Fin false m) y) = true.
Proof.
  assert (A : forall v, 0 <= m -> 0 <= v -> n_add (Fin false m) (Fin false v) = rounded false (m + v) 1).
  { intros v M V. cbn [n_add signed andb]. destruct (Z.eqb_spec (m + v) 0) as [E|E].
    - rewrite E. unfold rounded. cbv zeta. rewrite rnd_0 by lia. reflexivity.
    - replace (m + v <? 0) with false by lia. rewrite Z.abs_eq by lia. reflexivity. }
  intros M [(v & -> & B)| ->] [(w & -> & C)| ->] L.
  - rewrite !A by lia. cbn [n_le signed] in L. apply rounded_le; lia.
  - rewrite A by lia. cbn [n_add]. destruct (rounded_pos (m + v) 1 ltac:(lia) ltac:(lia)) as [(z & -> & _)| ->]; reflexivity.
  - discriminate.
  - reflexivity.
Qed.
Lemma rounded_signed_le a n b n' : 0 <= n -> 0 <= n' -> signed a n <= signed b n' -> (a = true -> 0 < n) ->
  n_le (rounded a n 1) (rounded b n' 1) = true.
Proof.
  intros N N' L Z0. pose proof (rnd_nonneg n 1 N ltac:(lia)). pose proof (rnd_nonneg n' 1 N' ltac:(lia)). pose proof limit_pos.
  unfold rounded. cbv zeta. destruct a, b; cbn [signed] in L.
  - pose proof (rnd_mono n' 1 n 1 N' ltac:(lia) N ltac:(lia) ltac:(lia)).
    destruct (Z.ltb_spec (rnd n 1) limit), (Z.ltb_spec (rnd n' 1) limit); cbn [n_le signed negb orb]; try reflexivity; lia.
  - destruct (Z.ltb_spec (rnd n 1) limit), (Z.ltb_spec (rnd n' 1) limit); cbn [n_le signed negb orb]; try reflexivity; lia.
  - assert (n = 0) by lia. assert (n' = 0) by lia. subst n n'. rewrite rnd_0 by lia. replace (0 <? limit) with true by lia. reflexivity.
  - pose proof (rnd_mono n 1 n' 1 N ltac:(lia) N' ltac:(lia) ltac:(lia)).
    destruct (Z.ltb_spec (rnd n 1) limit), (Z.ltb_spec (rnd n' 1) limit); cbn [n_le signed negb orb]; try reflexivity; lia.
Qed.
Lemma add_signed m v : 0 <= m -> 0 <= v -> n_le (n_sub (Fin false m) (Fin false v)) (rounded (m - v <? 0) (Z.abs (m - v)) 1) = true /\
  n_le (rounded (m - v <? 0) (Z.abs (m - v)) 1) (n_sub (Fin false m) (Fin false v)) = true.
Proof.
  intros M V. unfold n_sub, n_opp. cbn [n_add signed andb negb]. replace (m + - v) with (m - v) by lia.
  destruct (Z.eqb_spec (m - v) 0) as [E|E].
  - rewrite E. unfold rounded. cbv zeta. rewrite rnd_0 by lia. pose proof limit_pos. replace (0 <? limit) with true by lia. cbn. split; reflexivity.
  - assert (R : forall a n, n_le (rounded a n 1) (rounded a n 1) = true).
    { intros a n. unfold rounded. cbv zeta. destruct (rnd n 1 <? limit); destruct a; cbn [n_le signed negb orb]; try reflexivity; apply Z.leb_refl. }
    split; apply R.
Qed.
Lemma n_le_trans x y z : n_le x y = true -> n_le y z = true -> n_le x z = true.
Proof.
  destruct x as [|[]|a u], y as [|[]|b v], z as [|[]|c w]; cbn [n_le negb orb]; try discriminate; try reflexivity. rewrite !Z.leb_le. lia.
Qed.
Lemma sub_le m x y : 0 <= m -> pos_num x -> pos_num y -> n_le x y = true -> n_le (n_sub (Fin false m) y) (n_sub (Fin false m) x) = true.
Proof.
  intros M [(v & -> & B)| ->] [(w & -> & C)| ->] L; cbn [n_le signed] in L.
  - destruct (add_signed m v M ltac:(lia)) as [_ A]. destruct (add_signed m w M ltac:(lia)) as [A' _].
    eapply n_le_trans; [exact A'|]. eapply n_le_trans; [|exact A].
    apply rounded_signed_le; try lia; destruct (Z.ltb_spec (m - v) 0), (Z.ltb_spec (m - w) 0); unfold signed; lia.
  - destruct (add_signed m v M ltac:(lia)) as [_ A]. cbn [n_sub n_opp n_add negb]. eapply n_le_trans; [|exact A].
    unfold rounded. cbv zeta. destruct (_ <? limit), (m - v <? 0); reflexivity.
  - discriminate.
  - reflexivity.
Qed.

(** ** Half of the spread *)
Definition stage1 (k v : Z) : Z := rnd (k * v) unit.
Definition stage2 (k v : Z) : Z := rnd (stage1 k v * unit) (10000 * unit).
Lemma stages k v : 0 <= k <= 250 * unit -> 0 <= v <= 2 ^ 119 * unit ->
  0 <= stage1 k v <= 250 * 2 ^ 268 /\ 0 <= stage2 k v <= 250 * 2 ^ 268.
Proof.
  intros K V. pose proof unit_pos as U.
  assert (A : 0 <= stage1 k v <= 250 * 2 ^ 268).
  { unfold stage1. split; [apply rnd_nonneg; nia|]. apply rnd_upper; try lia; try nia.
    replace (250 * 2 ^ 268 * unit) with (250 * unit * (2 ^ 119 * unit)).
    - apply Z.mul_le_mono_nonneg; lia.
    - change (2 ^ 268) with (2 ^ 119 * 2 ^ 149). rewrite <- unit_eq. ring. }
  split; [exact A|]. unfold stage2. split; [apply rnd_nonneg; nia|]. apply rnd_upper; try lia; nia.
Qed.
Lemma below_limit x : x <= 250 * 2 ^ 268 -> x < limit.
Proof. intro H. apply Z.le_lt_trans with (1 := H). reflexivity. Qed.
Lemma half_form k v m : 0 <= k <= 250 * unit -> 0 <= v <= 2 ^ 119 * unit ->
  half_num k (Fin false v) (Fin false m) = n_div (rounded false (stage2 k v * m) unit) (Fin false (2 * unit)).
Proof.
  intros K V. destruct (stages k v K V) as ((A & B) & (C & D)). pose proof unit_pos as U. unfold half_num.
  cbn [n_mul xorb]. fold (stage1 k v) in B. rewrite rounded_fin by (apply below_limit; exact B). fold (stage1 k v).
  cbn [n_div xorb]. replace (10000 * unit =? 0) with false by lia. rewrite rounded_fin by (apply below_limit; exact D). fold (stage2 k v). reflexivity.
Qed.
Lemma half_pos k v m : 0 <= k <= 250 * unit -> 0 <= v <= 2 ^ 119 * unit -> 0 <= m -> pos_num (half_num k (Fin false v) (Fin false m)).
Proof.
  intros K V M. rewrite half_form by assumption. destruct (stages k v K V) as (_ & (C & D)). pose proof unit_pos as U.
  apply div_pos_num; [|lia]. apply rounded_pos; nia.
Qed.
Lemma half_le k k' v v' m m' : 0 <= k <= k' -> k' <= 250 * unit -> 0 <= v <= v' -> v' <= 2 ^ 119 * unit -> 0 <= m <= m' ->
  n_le (half_num k (Fin false v) (Fin false m)) (half_num k' (Fin false v') (Fin false m')) = true.
Proof.
  intros K K' V V' M. rewrite !half_form by lia. pose proof unit_pos as U.
  destruct (stages k v ltac:(lia) ltac:(lia)) as ((A & B) & (C & D)). destruct (stages k' v' ltac:(lia) ltac:(lia)) as ((A' & B') & (C' & D')).
  assert (S1 : stage1 k v <= stage1 k' v').
  { unfold stage1. apply rnd_mono; try nia. apply Z.mul_le_mono_nonneg_r; [lia|]. apply Z.mul_le_mono_nonneg; lia. }
  assert (S2 : stage2 k v <= stage2 k' v').
  { unfold stage2. apply rnd_mono; nia. }
  apply div_le; try lia; try (apply rounded_pos; nia).
  apply rounded_le; try nia. apply Z.mul_le_mono_nonneg_r; [lia|]. apply Z.mul_le_mono_nonneg; lia.
Qed.

(** ** The factors against the price list *)
Lemma lit_1_100 : ok (lit 1 100) /\ exists t, val (lit 1 100) = Fin false t /\ rnd (1 * unit) 100 = t /\ t < rnd (unit * (2 ^ 24 + 1)) (100 * 2 ^ 24).
Proof. split; [vm_compute; reflexivity|]. eexists. split; [vm_compute; reflexivity|]. split; vm_compute; reflexivity. Qed.
Lemma lit_5_100 : ok (lit 5 100) /\ exists t, val (lit 5 100) = Fin false t /\ rnd (1 * unit) 20 = t /\ t < rnd (unit * (2 ^ 24 + 1)) (20 * 2 ^ 24).
Proof. split; [vm_compute; reflexivity|]. eexists. split; [vm_compute; reflexivity|]. split; vm_compute; reflexivity. Qed.
Lemma share_le a w n t : 0 <= a -> 0 < w -> 0 < n -> 0 <= t < limit ->
  rnd (1 * unit) n = t -> t < rnd (unit * (2 ^ 24 + 1)) (n * 2 ^ 24) ->
  (n * a <= w -> n_le (n_div (Fin false a) (Fin false w)) (Fin false t) = true) /\
  (n_le (n_div (Fin false a) (Fin false w)) (Fin false t) = true -> n * (a * 2 ^ 24) <= w * (2 ^ 24 + 1)).
Proof.
  intros A W N T E1 E2. pose proof unit_pos as U. cbn [n_div xorb]. replace (w =? 0) with false by lia. split.
  - intro H. assert (R : rnd (a * unit) w <= t) by (rewrite <- E1; apply rnd_mono; nia).
    rewrite rounded_fin by lia. cbn [n_le signed]. lia.
  - intro H. destruct (Z_le_gt_dec (n * (a * 2 ^ 24)) (w * (2 ^ 24 + 1))) as [L|G]; [exact L|exfalso].
    assert (R : rnd (unit * (2 ^ 24 + 1)) (n * 2 ^ 24) <= rnd (a * unit) w) by (apply rnd_mono; nia).
    unfold rounded in H. cbv zeta in H. destruct (rnd (a * unit) w <? limit); cbn [n_le signed] in H; [lia|discriminate].
Qed.
Lemma size_ok a m A W : ok a -> ok (window_volume m) -> val a = Fin false A -> val (window_volume m) = Fin false W -> 0 <= A -> 0 < W ->
  size_tenths a m = size_of A W \/ size_tenths a m = size_of (A * 2 ^ 24) (W * (2 ^ 24 + 1)).
Proof.
  intros Oa Ow Va Vw HA HW. destruct (div_ok a (window_volume m) Oa Ow) as (Oq & Vq). rewrite Va, Vw in Vq.
  destruct lit_1_100 as (O1 & t1 & V1 & E1 & E1'). destruct lit_5_100 as (O5 & t5 & V5 & E5 & E5').
  assert (T1 : 0 <= t1 < limit). { rewrite <- E1. split; [apply rnd_nonneg; [pose proof unit_pos|]; lia|]. vm_compute. reflexivity. }
  assert (T5 : 0 <= t5 < limit). { rewrite <- E5. split; [apply rnd_nonneg; [pose proof unit_pos|]; lia|]. vm_compute. reflexivity. }
  destruct (share_le A W 100 t1 HA HW ltac:(lia) T1 E1 E1') as (P1 & Q1). destruct (share_le A W 20 t5 HA HW ltac:(lia) T5 E5 E5') as (P5 & Q5).
  unfold size_tenths. cbv zeta. unfold f_le, f_div. rewrite (le_ok _ _ Oq O1), (le_ok _ _ Oq O5), Vq, V1, V5.
  set (b1 := n_le _ (Fin false t1)) in *. set (b5 := n_le _ (Fin false t5)) in *. clearbody b1 b5. unfold size_of.
  destruct b1.
  - specialize (Q1 eq_refl). right. replace (100 * (A * 2 ^ 24) <=? W * (2 ^ 24 + 1)) with true by lia. reflexivity.
  - assert (N1 : ~ 100 * A <= W) by (intro H; specialize (P1 H); discriminate). replace (100 * A <=? W) with false by lia. destruct b5.
    + specialize (Q5 eq_refl). destruct (Z.leb_spec (20 * A) W) as [L|L]; [left; reflexivity|right].
      replace (20 * (A * 2 ^ 24) <=? W * (2 ^ 24 + 1)) with true by lia.
      replace (100 * (A * 2 ^ 24) <=? W * (2 ^ 24 + 1)) with false by lia. reflexivity.
    + left. assert (N5 : ~ 20 * A <= W) by (intro H; specialize (P5 H); discriminate). replace (20 * A <=? W) with false by lia. reflexivity.
Qed.
Lemma disc_ok c a A : ok a -> val a = Fin false A -> disc_tenths c a = discount_of c A.
Proof.
  intros Oa Va. destruct (lit_int 10) as (L1 & L2); [cbn; tauto|]. destruct (lit_int 5) as (L3 & L4); [cbn; tauto|].
  unfold disc_tenths, discount_of, f_gt. rewrite (lt_ok _ _ L1 Oa), (lt_ok _ _ L3 Oa), L2, L4, Va. cbn [n_lt n_le signed].
  rewrite <- !Z.ltb_antisym, <- !Z.gtb_ltb. reflexivity.
Qed.

(** ** Accuracy *)
Lemma near_1_exact n : 0 <= n < 2 ^ 24 -> rnd n 1 = n.
Proof. intro H. pose proof (rnd_exact n 0 ltac:(lia) ltac:(lia)) as E. rewrite Z.pow_0_r, Z.mul_1_r in E. exact E. Qed.
Lemma rnd_1_err n : 0 <= n -> Z.abs (rnd n 1 - n) * 2 ^ 24 <= n.
Proof.
  intro N. destruct (Z_lt_le_dec n (2 ^ 24)) as [L|L].
  - rewrite near_1_exact by lia. replace (n - n) with 0 by lia. cbn. exact N.
  - destruct (rnd_near n 1 ltac:(lia) ltac:(lia)) as (A & B). rewrite !Z.pow_1_r in *. lia.
Qed.
Lemma pow_le a b : 0 <= a <= b -> 2 ^ a <= 2 ^ b.
Proof. intro H. apply Z.pow_le_mono_r; lia. Qed.

(** Half of the spread, six roundings from the exact one. *)
Lemma half_near k p v m : near 2 k (p * unit) 100 -> 0 < p -> 7 * unit <= k <= 250 * unit ->
  2 ^ 89 <= v <= 2 ^ 209 -> 2 ^ 109 <= m <= 2 ^ 209 ->
  exists h, half_num k (Fin false v) (Fin false m) = Fin false h /\ 0 <= h /\ h <= 125 * 2 ^ 269 /\ near 6 h (p * v * m) scale.
Proof.
  intros N P K V M. pose proof unit_pos as U. pose proof unit_eq as UE.
  assert (V' : 0 <= v <= 2 ^ 119 * unit). { split; [lia|]. apply Z.le_trans with (1 := proj2 V). vm_compute. discriminate. }
  rewrite half_form by lia.
  assert (S1 : 7 * 2 ^ 89 <= stage1 k v).
  { unfold stage1. apply rnd_lower; try lia; try nia. }
  assert (S1' : stage1 k v <= 250 * 2 ^ 209). { unfold stage1. apply rnd_upper; try lia; nia. }
  assert (C1 : 2 ^ 23 * unit <= k * v) by nia.
  pose proof (near_step 2 k (p * unit) 100 (k * v) unit v unit ltac:(lia) N U ltac:(lia) U ltac:(lia) ltac:(nia) C1 eq_refl) as N1.
  fold (stage1 k v) in N1. set (x1 := stage1 k v) in *.
  assert (S2 : 1 * 2 ^ 77 <= stage2 k v).
  { unfold stage2. fold x1. apply rnd_lower; try lia; try nia. }
  assert (S2' : stage2 k v <= 250 * 2 ^ 209). { unfold stage2. fold x1. apply rnd_upper; try lia; nia. }
  assert (C2 : 2 ^ 23 * (10000 * unit) <= x1 * unit) by nia.
  assert (E2 : x1 * unit * 10000 = x1 * 1 * (10000 * unit)) by ring.
  pose proof (near_step 3 x1 (p * unit * v) (100 * unit) (x1 * unit) (10000 * unit) 1 10000 ltac:(lia) N1 ltac:(lia) ltac:(lia) ltac:(lia) ltac:(lia) ltac:(nia) C2 E2) as N2.
  unfold stage2 in S2, S2' |- *. fold x1 in S2, S2' |- *. set (x2 := rnd (x1 * unit) (10000 * unit)) in *. clearbody x2 x1.
  assert (C3 : 2 ^ 37 * unit <= x2 * m) by (rewrite UE; apply Z.le_trans with (2 ^ 77 * 2 ^ 109); [vm_compute; discriminate|apply Z.mul_le_mono_nonneg; lia]).
  assert (S3 : 1 * 2 ^ 37 <= rnd (x2 * m) unit). { apply rnd_lower; try lia; nia. }
  assert (S3' : rnd (x2 * m) unit <= 250 * 2 ^ 269).
  { apply rnd_upper; [nia|lia|lia|lia|]. rewrite UE. apply Z.le_trans with (250 * 2 ^ 209 * 2 ^ 209); [apply Z.mul_le_mono_nonneg; lia|vm_compute; discriminate]. }
  pose proof (near_step 4 x2 (p * unit * v * 1) (100 * unit * 10000) (x2 * m) unit m unit ltac:(lia) N2 ltac:(lia) ltac:(lia) ltac:(lia) ltac:(lia) ltac:(nia) ltac:(lia) eq_refl) as N3.
  rewrite rounded_fin. 2: { apply Z.le_lt_trans with (1 := S3'). vm_compute. reflexivity. }
  set (x3 := rnd (x2 * m) unit) in *. clearbody x3.
  cbn [n_div xorb]. replace (2 * unit =? 0) with false by lia.
  assert (C4 : 2 ^ 23 * (2 * unit) <= x3 * unit) by nia.
  assert (E4 : x3 * unit * 2 = x3 * 1 * (2 * unit)) by ring.
  pose proof (near_step 5 x3 (p * unit * v * 1 * m) (100 * unit * 10000 * unit) (x3 * unit) (2 * unit) 1 2 ltac:(lia) N3 ltac:(lia) ltac:(lia) ltac:(lia) ltac:(lia) ltac:(nia) C4 E4) as N4.
  assert (S4 : 0 <= rnd (x3 * unit) (2 * unit)) by (apply rnd_nonneg; nia).
  assert (S4' : rnd (x3 * unit) (2 * unit) <= 125 * 2 ^ 269) by (apply rnd_upper; lia).
  rewrite rounded_fin. 2: { apply Z.le_lt_trans with (1 := S4'). vm_compute. reflexivity. }
  eexists. split; [reflexivity|]. split; [exact S4|].
  set (h := rnd (x3 * unit) (2 * unit)) in *. clearbody h.
  split; [exact S4'|]. unfold near in *. change (5 + 1) with 6 in *. destruct N4 as (A & B). unfold scale.
  set (lo := (2 ^ 24 - 1) ^ 6) in *. set (un := (2 ^ 24) ^ 6) in *. set (hi := (2 ^ 24 + 1) ^ 6) in *. clearbody lo un hi.
  split; apply (Z.mul_le_mono_pos_r _ _ unit); try assumption.
  - replace (lo * (p * v * m) * unit) with (lo * (p * unit * v * 1 * m * 1)) by ring.
    replace (h * (unit * 2000000) * un * unit) with (h * (100 * unit * 10000 * unit * 2) * un) by ring. exact A.
  - replace (hi * (p * v * m) * unit) with (hi * (p * unit * v * 1 * m * 1)) by ring.
    replace (h * (unit * 2000000) * un * unit) with (h * (100 * unit * 10000 * unit * 2) * un) by ring. exact B.
Qed.
(** The bound of six roundings, as a distance. *)
Lemma near_dist h p q : near 6 h p q -> 0 <= p -> Z.abs (h * q - p) * 2 ^ 25 <= 13 * p.
Proof.
  intros (A & B) P. set (y := h * q) in *. clearbody y.
  assert (L : 2 * (2 ^ 24) ^ 6 - 13 * (2 ^ 24) ^ 5 <= 2 * (2 ^ 24 - 1) ^ 6) by (vm_compute; discriminate).
  assert (H : 2 * (2 ^ 24 + 1) ^ 6 <= 2 * (2 ^ 24) ^ 6 + 13 * (2 ^ 24) ^ 5) by (vm_compute; discriminate).
  set (lo := (2 ^ 24 - 1) ^ 6) in *. set (hi := (2 ^ 24 + 1) ^ 6) in *. clearbody lo hi.
  change ((2 ^ 24) ^ 6) with (2 ^ 120 * 2 ^ 24) in *. change ((2 ^ 24) ^ 5) with (2 ^ 120) in *. nia.
Qed.
