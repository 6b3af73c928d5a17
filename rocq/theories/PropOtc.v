(** * Properties of the trading desk

    C66 (the prices, up to rounding), C67 (their order), C68 (tapes). *)
Require Import ZArith List Bool Lia.
From Coq Require Import Floats.SpecFloat.
Require Import Verif.Word Verif.FloatSpec Verif.FloatFacts Verif.Guests Verif.GuestSpec Verif.GuestFacts Verif.Otc Verif.OtcSpec Verif.OtcFacts.
Require Verif.PropGuests.
Import ListNotations.
Ltac Zify.zify_post_hook ::= idtac.
Open Scope Z_scope.

(** ** C66 *)

(** The two prices are within one part in 2^21 (of the asking price) of the
    exact ones: half the spread of the price list on either side of the mid
    price.  The factor for the size is the list's, or the list's for a day's
    volume larger by one part in 2^24.  For a mid price from 2^-40 to 2^60
    and a volatility factor from 2^-60 to 2^60. *)
Theorem C66_prices : forall c a m A W V M,
  ok a -> ok (mid_price m) -> ok (window_volume m) -> ok (volatility m) ->
  val a = Fin false A -> val (window_volume m) = Fin false W -> 0 <= A -> 0 < W ->
  val (volatility m) = Fin false V -> val (mid_price m) = Fin false M ->
  2 ^ 89 <= V <= 2 ^ 209 -> 2 ^ 109 <= M <= 2 ^ 209 ->
  exists s sa ask sb bid,
    (s = size_of A W \/ s = size_of (A * 2 ^ 24) (W * (2 ^ 24 + 1))) /\
    val (fst (quote c a m)) = Fin sa ask /\ val (snd (quote c a m)) = Fin sb bid /\
    let d := discount_of c A in
    Z.abs (signed sa ask * scale - exact_ask c s d V M) * 2 ^ 21 <= exact_ask c s d V M /\
    Z.abs (signed sb bid * scale - exact_bid c s d V M) * 2 ^ 21 <= exact_ask c s d V M.
Proof.
  intros c a m A W V M Oa Om Ow Ov Va Vw HA HW Vv Vm HV HM. exists (size_tenths a m).
  destruct (quote_val c a m Om Ov) as (_ & _ & Q1 & Q2). cbv zeta in Q1, Q2. rewrite Vv, Vm in Q1, Q2.
  pose proof (disc_in c a) as DI. rewrite (disc_ok c a A Oa Va) in *. pose proof (size_ok a m A W Oa Ow Va Vw HA HW) as SO. pose proof (size_in a m) as SI.
  set (s := size_tenths a m) in *. set (d := discount_of c A) in *. clearbody s d.
  destruct (coef_ok c s d SI DI) as (_ & _ & N & K). set (k := coef_val c s d) in *. clearbody k.
  assert (P : 0 < spread_of c * s * d).
  { cbn [In sizes discs] in SI, DI. destruct SI as [<-|[<-|[<-|[]]]], DI as [<-|[<-|[<-|[]]]], c; reflexivity. }
  destruct (half_near k (spread_of c * s * d) V M N P K HV HM) as (h & E & H0 & H1 & HN). rewrite E in Q1, Q2.
  assert (EH : spread_of c * s * d * V * M = exact_half c s d V M) by reflexivity. rewrite EH in HN. clear EH.
  assert (EP : 0 <= exact_half c s d V M) by (unfold exact_half; nia).
  pose proof (near_dist _ _ _ HN EP) as ND.
  assert (SP : 0 < scale) by (unfold scale; pose proof unit_pos; lia).
  assert (LIM : forall n, 0 <= n <= 2 ^ 209 + 125 * 2 ^ 269 -> 0 <= rnd n 1 < limit).
  { intros n Hn. split; [apply rnd_nonneg; lia|]. apply Z.le_lt_trans with (126 * 2 ^ 269); [|reflexivity].
    apply rnd_upper; try lia. }
  assert (X1 : exists ask, val (fst (quote c a m)) = Fin false ask /\ Z.abs (ask - (M + h)) * 2 ^ 24 <= M + h).
  { rewrite Q1. cbn [n_add signed andb]. replace (M + h =? 0) with false by lia. replace (M + h <? 0) with false by lia. rewrite Z.abs_eq by lia.
    rewrite rounded_fin by (apply LIM; lia). eexists. split; [reflexivity|]. apply rnd_1_err. lia. }
  assert (X2 : exists sb bid, val (snd (quote c a m)) = Fin sb bid /\ Z.abs (signed sb bid - (M - h)) * 2 ^ 24 <= M + h).
  { rewrite Q2. unfold n_sub, n_opp. cbn [n_add signed andb negb]. replace (M + - h) with (M - h) by lia. destruct (Z.eqb_spec (M - h) 0) as [Z0|Z0].
    - do 2 eexists. split; [reflexivity|]. cbn [signed]. rewrite Z0. cbn. lia.
    - unfold rounded. cbv zeta. pose proof (LIM (Z.abs (M - h)) ltac:(lia)) as L2. replace (rnd (Z.abs (M - h)) 1 <? limit) with true by lia.
      do 2 eexists. split; [reflexivity|]. pose proof (rnd_1_err (Z.abs (M - h)) ltac:(lia)) as R.
      destruct (Z.ltb_spec (M - h) 0); cbn [signed]; lia. }
  destruct X1 as (ask & A1 & A2), X2 as (sb & bid & B1 & B2). exists false, ask, sb, bid.
  split; [exact SO|]. split; [exact A1|]. split; [exact B1|]. cbv zeta. cbn [signed].
  unfold exact_ask, exact_bid. set (e := exact_half c s d V M) in *. clearbody e.
  assert (Y : forall x g, Z.abs (x - (M + g * h)) * 2 ^ 24 <= M + h -> (g = 1 \/ g = -1) -> Z.abs (x * scale - (M * scale + g * e)) * 2 ^ 21 <= M * scale + e).
  { intros x g X G.
    assert (X' : Z.abs (x * scale - (M * scale + g * (h * scale))) * 2 ^ 24 <= M * scale + h * scale).
    { replace (x * scale - (M * scale + g * (h * scale))) with ((x - (M + g * h)) * scale) by ring. rewrite Z.abs_mul, (Z.abs_eq scale) by lia. nia. }
    set (y := x * scale) in *. set (z := h * scale) in *. assert (0 <= M * scale) by nia. set (w := M * scale) in *. clearbody y z w.
    destruct G as [-> | ->]; lia. }
  split.
  - replace (M * scale + e) with (M * scale + 1 * e) at 1 by ring. apply Y; [|auto]. replace (M + 1 * h) with (M + h) by ring. exact A2.
  - replace (M * scale - e) with (M * scale + -1 * e) by ring. apply Y; [|auto]. replace (M + -1 * h) with (M - h) by ring. exact B2.
Qed.
Print Assumptions C66_prices.
(** The host program's own trade: 5 of a day's 100, a prime client, mid price
    1000.  Five percent is still the middle size; five is not yet a discount. *)
Example C66_case :
  size_of (5 * unit) (100 * unit) = 15 /\ discount_of PRIME (5 * unit) = 10 /\
  (let q := quote PRIME (lit 5 1) default_market in (to_bits 0 (fst q), to_bits 0 (snd q)) = (0x447A2A7C, 0x4479D584)) /\
  2 ^ 89 <= (match val volatility_factor with Fin _ v => v | _ => 0 end) <= 2 ^ 209.
Proof. repeat split; vm_compute; try reflexivity; discriminate. Qed.

(** The size's factor is not always the list's: the share is compared after
    rounding. *)
Theorem C66_size_refuted : exists a m A W,
  ok a /\ ok (window_volume m) /\ val a = Fin false A /\ val (window_volume m) = Fin false W /\
  size_of A W = 15 /\ size_adj a m = lit 10 10.
Proof.
  exists (lit 10737417 64), (mkMarket (lit 1000 1) (lit 16777214 1) (lit 1 1)).
  do 2 eexists. split; [vm_compute; reflexivity|]. split; [vm_compute; reflexivity|]. split; [vm_compute; reflexivity|]. split; [vm_compute; reflexivity|].
  split; vm_compute; reflexivity.
Qed.
Print Assumptions C66_size_refuted.

(** ** C67 *)
Lemma ok_range x v : ok x -> val x = Fin false v -> 0 <= v < limit /\ rounded false v 1 = Fin false v.
Proof.
  intros O E. destruct x as [s|s| |s p e]; cbn [val] in E; try discriminate.
  - assert (v = 0) by congruence. subst v. pose proof limit_pos. split; [lia|]. unfold rounded. cbv zeta. rewrite rnd_0 by lia. replace (0 <? limit) with true by lia. reflexivity.
  - assert (s = false /\ Zpos p * 2 ^ (e + 149) = v) as (-> & V) by (split; congruence).
    pose proof (rounded_self _ _ _ O) as R. rewrite V in R. split; [|exact R]. clear E.
    assert (0 <= v). { rewrite <- V. apply Z.mul_nonneg_nonneg; [lia|]. apply Z.pow_nonneg. lia. }
    unfold rounded in R. cbv zeta in R. destruct (Z.ltb_spec (rnd v 1) limit) as [L|L]; [|discriminate].
    assert (rnd v 1 = v) by congruence. lia.
Qed.
Lemma add_zero v : 0 <= v -> rounded false v 1 = Fin false v -> n_add (Fin false v) (Fin false 0) = Fin false v /\ n_sub (Fin false v) (Fin false 0) = Fin false v.
Proof.
  intros V R. unfold n_sub, n_opp. cbn [n_add signed andb negb]. rewrite !Z.add_0_r. destruct (Z.eqb_spec v 0) as [->|N]; [split; reflexivity|].
  replace (v <? 0) with false by lia. rewrite Z.abs_eq by lia. rewrite R. split; reflexivity.
Qed.
Lemma zero_le x : pos_num x -> n_le (Fin false 0) x = true.
Proof. intros [(v & -> & H)| ->]; cbn [n_le signed negb]; [lia|reflexivity]. Qed.
Lemma zero_pos : pos_num (Fin false 0).
Proof. left. exists 0. pose proof limit_pos. split; [reflexivity|lia]. Qed.

(** A mid price and a volatility factor that are numbers, not negative; the
    factor is at most 2^119, so that the spread is finite. *)
Definition usual (m : market) : Prop :=
  ok (mid_price m) /\ ok (volatility m) /\ (exists M, val (mid_price m) = Fin false M) /\
  (exists V, val (volatility m) = Fin false V /\ V <= 2 ^ 119 * unit).

Lemma coef_bounds c a m : 0 <= coef_val c (size_tenths a m) (disc_tenths c a) <= 250 * unit.
Proof. destruct (coef_ok c _ _ (size_in a m) (disc_in c a)) as (_ & _ & _ & K). pose proof unit_pos. lia. Qed.

(** The mid price is never above the asking price or below the bid, whatever
    the trade. *)
Theorem C67_around_mid : forall c a m, usual m ->
  f_le (snd (quote c a m)) (mid_price m) = true /\ f_le (mid_price m) (fst (quote c a m)) = true.
Proof.
  intros c a m (Om & Ov & (M & Vm) & (V & Vv & HV)).
  destruct (quote_val c a m Om Ov) as (Oa & Ob & Q1 & Q2). cbv zeta in Q1, Q2.
  destruct (ok_range _ _ Om Vm) as (RM & RR). destruct (ok_range _ _ Ov Vv) as (RV & _). destruct (add_zero M ltac:(lia) RR) as (Z1 & Z2).
  rewrite Vm, Vv in Q1, Q2. unfold f_le. rewrite (le_ok _ _ Ob Om), (le_ok _ _ Om Oa), Q1, Q2, Vm.
  pose proof (half_pos _ V M (coef_bounds c a m) ltac:(lia) ltac:(lia)) as HP. set (h := half_num _ _ _) in *. clearbody h.
  split.
  - rewrite <- Z2 at 2. apply sub_le; [lia|exact zero_pos|exact HP|apply zero_le, HP].
  - rewrite <- Z1 at 1. apply add_le; [lia|exact zero_pos|exact HP|apply zero_le, HP].
Qed.
Print Assumptions C67_around_mid.

(** Larger spreads: asking prices rise, bids fall. *)
Lemma wider c c' a a' m : usual m -> coef_val c (size_tenths a m) (disc_tenths c a) <= coef_val c' (size_tenths a' m) (disc_tenths c' a') ->
  f_le (fst (quote c a m)) (fst (quote c' a' m)) = true /\ f_le (snd (quote c' a' m)) (snd (quote c a m)) = true.
Proof.
  intros (Om & Ov & (M & Vm) & (V & Vv & HV)) L.
  destruct (quote_val c a m Om Ov) as (Oa & Ob & Q1 & Q2). destruct (quote_val c' a' m Om Ov) as (Oa' & Ob' & Q1' & Q2'). cbv zeta in Q1, Q2, Q1', Q2'.
  destruct (ok_range _ _ Om Vm) as (RM & _). destruct (ok_range _ _ Ov Vv) as (RV & _).
  unfold f_le. rewrite (le_ok _ _ Oa Oa'), (le_ok _ _ Ob' Ob), Q1, Q2, Q1', Q2', Vm, Vv.
  pose proof (coef_bounds c a m) as K. pose proof (coef_bounds c' a' m) as K'.
  pose proof (half_pos _ V M K ltac:(lia) ltac:(lia)) as HP. pose proof (half_pos _ V M K' ltac:(lia) ltac:(lia)) as HP'.
  pose proof (half_le _ _ V V M M (conj (proj1 K) L) (proj2 K') ltac:(lia) ltac:(lia) ltac:(lia)) as HL.
  split; [apply add_le|apply sub_le]; try assumption; lia.
Qed.

(** Prime clients never pay more, or are paid less, than institutions, nor
    those than retail clients, for the same trade. *)
Theorem C67_clients : forall c c' a m, usual m -> rank c <= rank c' ->
  f_le (fst (quote c a m)) (fst (quote c' a m)) = true /\ f_le (snd (quote c' a m)) (snd (quote c a m)) = true.
Proof.
  intros c c' a m U R. apply wider; [exact U|]. apply coef_rank; try apply size_in; try apply disc_in; [exact R|].
  unfold disc_tenths. destruct c, c'; cbn [rank] in R; try lia; destruct (f_gt a (lit 10 1)), (f_gt a (lit 5 1)); lia.
Qed.
Print Assumptions C67_clients.

(** Among trades with the same discount (for retail clients: all trades), a
    larger one never gets a better price. *)
Theorem C67_sizes : forall c a a' m A A' W, usual m -> ok a -> ok a' -> ok (window_volume m) ->
  val a = Fin false A -> val a' = Fin false A' -> val (window_volume m) = Fin false W -> 0 < W -> A <= A' -> volume_disc c a = volume_disc c a' ->
  f_le (fst (quote c a m)) (fst (quote c a' m)) = true /\ f_le (snd (quote c a' m)) (snd (quote c a m)) = true.
Proof.
  intros c a a' m A A' W U Oa Oa' Ow Va Va' Vw HW L D. apply wider; [exact U|].
  assert (D' : disc_tenths c a = disc_tenths c a').
  { rewrite !disc_lit in D. pose proof (disc_in c a) as I. pose proof (disc_in c a') as I'. cbn [In discs] in I, I'.
    destruct I as [I|[I|[I|[]]]], I' as [I'|[I'|[I'|[]]]]; rewrite <- I, <- I' in *; try reflexivity; vm_compute in D; discriminate. }
  rewrite D'. apply coef_mono; try apply size_in; try apply disc_in; [|lia].
  destruct (div_ok _ _ Oa Ow) as (Oq & Vq). destruct (div_ok _ _ Oa' Ow) as (Oq' & Vq'). rewrite Va, Vw in Vq. rewrite Va', Vw in Vq'.
  destruct lit_1_100 as (O1 & t1 & V1 & _). destruct lit_5_100 as (O5 & t5 & V5 & _).
  destruct (ok_range _ _ Oa Va) as (RA & _). destruct (ok_range _ _ Oa' Va') as (RA' & _).
  assert (Q : n_le (n_div (Fin false A) (Fin false W)) (n_div (Fin false A') (Fin false W)) = true).
  { apply div_le; try lia; try (left; eexists; split; [reflexivity|lia]). cbn [n_le signed]. lia. }
  unfold size_tenths. cbv zeta. unfold f_le, f_div. rewrite (le_ok _ _ Oq O1), (le_ok _ _ Oq O5), (le_ok _ _ Oq' O1), (le_ok _ _ Oq' O5), Vq, Vq', V1, V5.
  destruct (n_le (n_div (Fin false A') (Fin false W)) (Fin false t1)) eqn:E1.
  - rewrite (n_le_trans _ _ _ Q E1). lia.
  - destruct (n_le (n_div (Fin false A') (Fin false W)) (Fin false t5)) eqn:E5.
    + rewrite (n_le_trans _ _ _ Q E5). destruct (n_le (n_div (Fin false A) (Fin false W)) (Fin false t1)); lia.
    + destruct (n_le (n_div (Fin false A) (Fin false W)) (Fin false t1)), (n_le (n_div (Fin false A) (Fin false W)) (Fin false t5)); lia.
Qed.
Print Assumptions C67_sizes.

(** Across a discount it may: 6 cost less than 5 each. *)
Theorem C67_sizes_refuted : exists c a a' m, usual m /\ f_le a a' = true /\ f_le (fst (quote c a m)) (fst (quote c a' m)) = false.
Proof.
  exists PRIME, (lit 5 1), (lit 6 1), (mkMarket (lit 1000 1) (lit 1000 1) (lit 1 1)).
  split; [|split; vm_compute; reflexivity].
  split; [vm_compute; reflexivity|]. split; [vm_compute; reflexivity|]. split; eexists; [vm_compute; reflexivity|]. split; [vm_compute; reflexivity|].
  vm_compute. discriminate.
Qed.
Print Assumptions C67_sizes_refuted.

Lemma normal_form x v : ok x -> val x = Fin false v -> 2 ^ 24 <= v -> exists p e, v = p * 2 ^ e /\ 2 ^ 23 <= p < 2 ^ 24 /\ 0 <= e.
Proof.
  intros O E L. destruct x as [s|s| |s p e]; cbn [val] in E; try discriminate; [assert (v = 0) by congruence; lia|].
  assert (V : Zpos p * 2 ^ (e + 149) = v) by congruence. clear E. apply ok_finite in O. rewrite fx_eq in O.
  destruct (digits_bounds (Zpos p) ltac:(lia)) as (G & B).
  destruct (Z_le_gt_dec (-149) (Zdigits2 (Zpos p) + e - 24)) as [C|C].
  - exists (Zpos p), (e + 149). assert (D : Zdigits2 (Zpos p) = 24) by lia. rewrite D in B. split; [symmetry; exact V|]. change (24 - 1) with 23 in B. lia.
  - assert (e = -149) by lia. subst e. change (-149 + 149) with 0 in V. rewrite Z.pow_0_r, Z.mul_1_r in V.
    pose proof (pow_le (Zdigits2 (Zpos p)) 24 ltac:(lia)). lia.
Qed.
Lemma half_big m p e : m = p * 2 ^ e -> 2 ^ 23 <= p < 2 ^ 24 -> 22 <= e ->
  n_le (Fin false (p * 2 ^ (e - 22))) (half_num (7 * unit) (Fin false (2 ^ 139)) (Fin false m)) = true.
Proof.
  intros -> P E. pose proof unit_pos as U. pose proof limit_pos as LP.
  assert (V : 2 ^ 139 <= 2 ^ 119 * unit) by (vm_compute; discriminate). rewrite half_form by lia.
  assert (S2 : 2 ^ 128 <= stage2 (7 * unit) (2 ^ 139)) by (vm_compute; discriminate). set (x2 := stage2 (7 * unit) (2 ^ 139)) in *. clearbody x2.
  pose proof (pow_split (e - 22) 22 ltac:(lia) ltac:(lia)) as E22. replace (e - 22 + 22) with e in E22 by lia.
  pose proof (pow_split (e - 22) 1 ltac:(lia) ltac:(lia)) as E21. replace (e - 22 + 1) with (e - 21) in E21 by lia.
  pose proof (Z.pow_pos_nonneg 2 (e - 22) ltac:(lia) ltac:(lia)) as PW. 
  assert (R3 : p * 2 ^ (e - 21) <= rnd (x2 * (p * 2 ^ e)) unit).
  { apply rnd_lower; [rewrite E22; nia|lia|lia|lia|]. rewrite unit_eq. change (2 ^ 149) with (2 ^ 128 * 2 ^ 21). rewrite E22, E21.
    replace (p * (2 ^ (e - 22) * 2 ^ 1) * (2 ^ 128 * 2 ^ 21)) with (2 ^ 128 * (p * (2 ^ (e - 22) * (2 ^ 1 * 2 ^ 21)))) by ring.
    change (2 ^ 1 * 2 ^ 21) with (2 ^ 22). apply Z.mul_le_mono_nonneg_r; [nia|exact S2]. }
  unfold rounded at 1. cbv zeta. destruct (rnd (x2 * (p * 2 ^ e)) unit <? limit) eqn:F; [|reflexivity].
  set (x3 := rnd (x2 * (p * 2 ^ e)) unit) in *. clearbody x3. cbn [n_div xorb]. replace (2 * unit =? 0) with false by lia.
  assert (R4 : p * 2 ^ (e - 22) <= rnd (x3 * unit) (2 * unit)). { apply rnd_lower; try lia; nia. }
  unfold rounded. cbv zeta. destruct (rnd (x3 * unit) (2 * unit) <? limit); cbn [n_le signed negb]; [lia|reflexivity].
Qed.

(** With a mid price of 2^-100 or more and a volatility factor of 2^-10 or
    more the desk always earns something: the prices differ from the mid
    price. *)
Theorem C67_strict : forall c a m M V, usual m -> val (mid_price m) = Fin false M -> val (volatility m) = Fin false V ->
  2 ^ 49 <= M -> 2 ^ 139 <= V ->
  f_gt (mid_price m) (snd (quote c a m)) = true /\ f_gt (fst (quote c a m)) (mid_price m) = true.
Proof.
  intros c a m M V (Om & Ov & _ & (V' & Vv' & HV)) Vm Vv LM LV. assert (V' = V) by congruence. subst V'.
  destruct (quote_val c a m Om Ov) as (Oa & Ob & Q1 & Q2). cbv zeta in Q1, Q2. rewrite Vm, Vv in Q1, Q2.
  destruct (ok_range _ _ Om Vm) as (RM & RR). destruct (normal_form _ _ Om Vm ltac:(lia)) as (p & e & E & P & Pe).
  assert (E26 : 26 <= e).
  { destruct (Z_lt_le_dec e 26) as [C|C]; [exfalso|exact C]. pose proof (pow_le e 25 ltac:(lia)).
    assert (p * 2 ^ e < 2 ^ 24 * 2 ^ 25) by nia. change (2 ^ 24 * 2 ^ 25) with (2 ^ 49) in *. lia. }
  destruct (coef_ok c _ _ (size_in a m) (disc_in c a)) as (_ & _ & _ & K). set (k := coef_val _ _ _) in *. clearbody k.
  pose proof unit_pos as U.
  pose proof (half_le (7 * unit) k (2 ^ 139) V M M ltac:(lia) ltac:(lia) ltac:(lia) ltac:(lia) ltac:(lia)) as HL.
  pose proof (n_le_trans _ _ _ (half_big M p e E P ltac:(lia)) HL) as HB.
  pose proof (half_pos k V M ltac:(lia) ltac:(lia) ltac:(lia)) as HP.
  set (h := half_num k (Fin false V) (Fin false M)) in *. clearbody h. clear HL.
  pose proof (pow_split (e - 22) 22 ltac:(lia) ltac:(lia)) as E22. replace (e - 22 + 22) with e in E22 by lia.
  pose proof (Z.pow_pos_nonneg 2 (e - 22) ltac:(lia) ltac:(lia)) as PW. set (h0 := p * 2 ^ (e - 22)) in *.
  assert (H0 : 2 ^ e <= h0 /\ h0 <= M) by (subst h0; rewrite E, E22; nia).
  assert (P0 : pos_num (Fin false h0)) by (left; exists h0; split; [reflexivity|lia]).
  pose proof (add_le M _ _ ltac:(lia) P0 HP HB) as LA. pose proof (sub_le M _ _ ltac:(lia) P0 HP HB) as LS.
  unfold f_gt. rewrite (lt_ok _ _ Ob Om), (lt_ok _ _ Om Oa), Q1, Q2, Vm.
  assert (NA : n_le (n_add (Fin false M) h) (Fin false M) = false).
  { destruct (n_le (n_add (Fin false M) h) (Fin false M)) eqn:C; [exfalso|reflexivity]. pose proof (n_le_trans _ _ _ LA C) as D.
    cbn [n_add signed andb] in D. replace (M + h0 =? 0) with false in D by lia. replace (M + h0 <? 0) with false in D by lia. rewrite Z.abs_eq in D by lia.
    assert (R : (p + 1) * 2 ^ e <= rnd (M + h0) 1) by (apply rnd_lower; try lia; nia).
    unfold rounded in D. cbv zeta in D. destruct (rnd (M + h0) 1 <? limit); cbn [n_le signed negb] in D; [|discriminate].
    apply Z.leb_le in D. pose proof (Z.pow_pos_nonneg 2 e ltac:(lia) ltac:(lia)). nia. }
  assert (NS : n_le (Fin false M) (n_sub (Fin false M) h) = false).
  { destruct (n_le (Fin false M) (n_sub (Fin false M) h)) eqn:C; [exfalso|reflexivity]. pose proof (n_le_trans _ _ _ C LS) as D.
    destruct (add_signed M h0 ltac:(lia) ltac:(lia)) as (AS & _). pose proof (n_le_trans _ _ _ D AS) as D'.
    replace (M - h0 <? 0) with false in D' by lia. rewrite Z.abs_eq in D' by lia.
    assert (R : rnd (M - h0) 1 <= (p - 1) * 2 ^ e) by (apply rnd_upper; try lia; nia).
    pose proof (Z.pow_pos_nonneg 2 e ltac:(lia) ltac:(lia)).
    assert (R' : rnd (M - h0) 1 < M) by nia. rewrite rounded_fin in D' by lia. cbn [n_le signed] in D'. lia. }
  unfold n_lt. split.
  - destruct (n_sub (Fin false M) h) eqn:Z0; [|rewrite NS; reflexivity|rewrite NS; reflexivity].
    destruct HP as [(z & -> & _)| ->]; [|discriminate]. cbn in Z0. destruct (M + - z =? 0); [discriminate|]. unfold rounded in Z0. cbv zeta in Z0.
    destruct (_ <? limit); discriminate.
  - destruct (n_add (Fin false M) h) eqn:Z0; [|rewrite NA; reflexivity|rewrite NA; reflexivity].
    destruct HP as [(z & -> & _)| ->]; [|discriminate]. cbn in Z0. destruct (M + z =? 0); [discriminate|]. unfold rounded in Z0. cbv zeta in Z0.
    destruct (_ <? limit); discriminate.
Qed.
Print Assumptions C67_strict.

(** Volumes that are no shares: if either is NaN, if both are zero, or if the
    day's volume is zero, the factor is the largest; if exactly one of the
    two is negative it is the smallest. *)
Theorem C67_odd_volumes : forall a m, ok a -> ok (window_volume m) ->
  (val a = NaN \/ val (window_volume m) = NaN -> size_adj a m = lit 25 10) /\
  (forall s t, val a = Fin s 0 -> val (window_volume m) = Fin t 0 -> size_adj a m = lit 25 10) /\
  (forall s A, 0 < A -> val a = Fin s A -> val (window_volume m) = Fin s 0 -> size_adj a m = lit 25 10) /\
  (forall s A W, 0 < A -> 0 <= W -> val a = Fin s A -> val (window_volume m) = Fin (negb s) W -> size_adj a m = lit 10 10).
Proof.
  intros a m Oa Ow. destruct (div_ok _ _ Oa Ow) as (Oq & Vq). destruct lit_1_100 as (O1 & t1 & V1 & _ & _). destruct lit_5_100 as (O5 & t5 & V5 & _).
  assert (T1 : 0 <= t1). { destruct (ok_range _ _ O1 V1) as (R & _). lia. }
  rewrite size_lit. unfold size_tenths. cbv zeta. unfold f_le, f_div. rewrite (le_ok _ _ Oq O1), (le_ok _ _ Oq O5), Vq, V1, V5.
  split; [|split; [|split]].
  - intros [H|H]; rewrite H; [reflexivity|]. destruct (val a); reflexivity.
  - intros s t H H'. rewrite H, H'. reflexivity.
  - intros s A P H H'. rewrite H, H'. cbn [n_div]. replace (0 =? 0) with true by reflexivity. replace (A =? 0) with false by lia. destruct s; reflexivity.
  - intros s A W P Q H H'. rewrite H, H'. cbn [n_div]. replace (A =? 0) with false by lia.
    assert (X : xorb s (negb s) = true) by (destruct s; reflexivity). rewrite X. destruct (Z.eqb_spec W 0) as [E|E]; [reflexivity|].
    pose proof unit_pos. pose proof (rnd_nonneg (A * unit) W ltac:(nia) ltac:(lia)). unfold rounded. cbv zeta. destruct (_ <? limit); [|reflexivity].
    cbn [n_le signed]. destruct (Z.leb_spec (- rnd (A * unit) W) t1); [reflexivity|lia].
Qed.
Print Assumptions C67_odd_volumes.

Example C67_case :
  usual default_market /\
  (let price c a := to_bits 0 (fst (quote c a default_market)) in
   map (fun c => price c (lit 5 1)) [PRIME; INSTITUTIONAL; RETAIL] = [0x447A2A7C; 0x447A6A35; 0x447BA8D4] /\
   map (price RETAIL) [lit 1 1; lit 5 1; lit 6 1] = [0x447B1B38; 0x447BA8D4; 0x447CC40D]).
Proof.
  split; [|vm_compute; split; reflexivity]. split; [vm_compute; reflexivity|]. split; [vm_compute; reflexivity|].
  split; eexists; [vm_compute; reflexivity|]. split; [vm_compute; reflexivity|]. vm_compute. discriminate.
Qed.

(** ** C68 *)
(** The bits of a number, as IEEE 754 lays them out: sign, eight bits of
    exponent, 23 of fraction. *)
Definition ieee (s e f : Z) : num :=
  if e =? 255 then if f =? 0 then Inf (s =? 1) else NaN
  else Fin (s =? 1) (if e =? 0 then f else (2 ^ 23 + f) * 2 ^ (e - 1)).
Lemma digits_24 p : 2 ^ 23 <= Zpos p < 2 ^ 24 -> Zdigits2 (Zpos p) = 24.
Proof. intro H. apply digits_unique; [exact H|lia]. Qed.
Theorem C68_of_bits : forall s e f, 0 <= s < 2 -> 0 <= e < 256 -> 0 <= f < 2 ^ 23 ->
  ok (of_bits (s * 2 ^ 31 + e * 2 ^ 23 + f)) /\ val (of_bits (s * 2 ^ 31 + e * 2 ^ 23 + f)) = ieee s e f.
Proof.
  intros s e f Hs He Hf. set (b := s * 2 ^ 31 + e * 2 ^ 23 + f).
  assert (B1 : b / 2 ^ 31 mod 2 = s). { assert (Q : b / 2 ^ 31 = s) by (symmetry; apply Z.div_unique with (e * 2 ^ 23 + f); [left; lia|subst b; lia]). rewrite Q. apply Z.mod_small. lia. }
  assert (B2 : b / 2 ^ 23 mod 256 = e).
  { assert (Q : b / 2 ^ 23 = s * 256 + e) by (symmetry; apply Z.div_unique with f; [left; lia|subst b; lia]). rewrite Q, Z.add_comm, Z.mod_add by lia. apply Z.mod_small. lia. }
  assert (B3 : b mod 2 ^ 23 = f) by (symmetry; apply Z.mod_unique with (s * 256 + e); [left; lia|subst b; lia]).
  unfold of_bits. cbv zeta. rewrite B1, B2, B3. clearbody b. unfold ieee. destruct (Z.eqb_spec e 255) as [E|E]; [destruct (f =? 0); split; reflexivity|].
  destruct (Z.eqb_spec e 0) as [E0|E0].
  - destruct f as [|p|p]; [split; reflexivity| |lia]. split.
    + apply ok_finite. rewrite fx_eq. destruct (digits_bounds (Zpos p) ltac:(lia)) as (G & B).
      assert (Zdigits2 (Zpos p) <= 23). { destruct (Z_le_gt_dec (Zdigits2 (Zpos p)) 23) as [|C]; [assumption|exfalso]. pose proof (pow_le 23 (Zdigits2 (Zpos p) - 1) ltac:(lia)). lia. } lia.
    + cbn [val]. change (-149 + 149) with 0. rewrite Z.pow_0_r, Z.mul_1_r. reflexivity.
  - destruct (f + 2 ^ 23) as [|p|p] eqn:F; try lia. split.
    + apply ok_finite. rewrite fx_eq, digits_24 by lia. lia.
    + cbn [val]. rewrite <- F. f_equal. f_equal; [ring|]. f_equal. lia.
Qed.
Print Assumptions C68_of_bits.
Lemma bits_split b : 0 <= b < 2 ^ 32 -> exists s e f, 0 <= s < 2 /\ 0 <= e < 256 /\ 0 <= f < 2 ^ 23 /\ b = s * 2 ^ 31 + e * 2 ^ 23 + f.
Proof.
  intro H. exists (b / 2 ^ 31), (b / 2 ^ 23 mod 256), (b mod 2 ^ 23).
  pose proof (Z.mod_pos_bound b (2 ^ 23) ltac:(lia)). pose proof (Z.mod_pos_bound (b / 2 ^ 23) 256 ltac:(lia)).
  pose proof (Z.div_mod b (2 ^ 23) ltac:(lia)) as D1. pose proof (Z.div_mod (b / 2 ^ 23) 256 ltac:(lia)) as D2.
  rewrite Z.div_div in D2 by lia. change (2 ^ 23 * 256) with (2 ^ 31) in D2.
  assert (0 <= b / 2 ^ 31 < 2) by (split; [apply Z.div_pos; lia|apply Z.div_lt_upper_bound; lia]).
  change (2 ^ 31) with (2 ^ 23 * 256) in *. lia.
Qed.
(** Every number of the program has one bit pattern, NaN apart. *)
Theorem C68_bits_round_trip : forall nan x, 0 <= nan < 2 ^ 32 -> of_bits nan = S754_nan -> ok x ->
  0 <= to_bits nan x < 2 ^ 32 /\ of_bits (to_bits nan x) = x.
Proof.
  intros nan x N NN O.
  assert (SB : forall s, 0 <= b2w s < 2 /\ (b2w s =? 1) = s) by (intros []; cbn; split; try lia; reflexivity).
  assert (OB : forall s e f, 0 <= e < 256 -> 0 <= f < 2 ^ 23 -> of_bits (b2w s * 2 ^ 31 + e * 2 ^ 23 + f) =
     if e =? 255 then if f =? 0 then S754_infinity s else S754_nan
     else if e =? 0 then match f with Zpos p => S754_finite s p (-149) | _ => S754_zero s end
     else match f + 2 ^ 23 with Zpos p => S754_finite s p (e - 150) | _ => S754_nan end).
  { intros s e f He Hf. destruct (SB s) as (S1 & S2). set (b := b2w s * 2 ^ 31 + e * 2 ^ 23 + f).
    assert (B1 : b / 2 ^ 31 mod 2 = b2w s). { assert (Q : b / 2 ^ 31 = b2w s) by (symmetry; apply Z.div_unique with (e * 2 ^ 23 + f); [left; lia|subst b; lia]). rewrite Q. apply Z.mod_small. lia. }
    assert (B2 : b / 2 ^ 23 mod 256 = e).
    { assert (Q : b / 2 ^ 23 = b2w s * 256 + e) by (symmetry; apply Z.div_unique with f; [left; lia|subst b; lia]). rewrite Q, Z.add_comm, Z.mod_add by lia. apply Z.mod_small. lia. }
    assert (B3 : b mod 2 ^ 23 = f) by (symmetry; apply Z.mod_unique with (b2w s * 256 + e); [left; lia|subst b; lia]).
    unfold of_bits. cbv zeta. rewrite B1, B2, B3, S2. reflexivity. }
  destruct x as [s|s| |s m e]; cbn [to_bits].
  - destruct (SB s) as (S1 & _). split; [lia|]. pose proof (OB s 0 0 ltac:(lia) ltac:(lia)) as Q. rewrite Z.add_0_r in Q. change (0 * 2 ^ 23) with 0 in Q. rewrite Z.add_0_r in Q. exact Q.
  - destruct (SB s) as (S1 & _). split; [lia|]. pose proof (OB s 255 0 ltac:(lia) ltac:(lia)) as Q. rewrite Z.add_0_r in Q. exact Q.
  - auto.
  - destruct (SB s) as (S1 & _). apply ok_finite in O. rewrite fx_eq in O. destruct (digits_bounds (Zpos m) ltac:(lia)) as (G & B).
    destruct (Z.ltb_spec (Zpos m) (2 ^ 23)) as [L|L].
    + assert (D : Zdigits2 (Zpos m) <= 23). { destruct (Z_le_gt_dec (Zdigits2 (Zpos m)) 23) as [|C]; [assumption|exfalso]. pose proof (pow_le 23 (Zdigits2 (Zpos m) - 1) ltac:(lia)). lia. }
      assert (e = -149) by lia. subst e. split; [lia|]. pose proof (OB s 0 (Zpos m) ltac:(lia) ltac:(lia)) as Q. change (0 * 2 ^ 23) with 0 in Q. rewrite Z.add_0_r in Q. exact Q.
    + assert (D : Zdigits2 (Zpos m) <= 24) by lia. pose proof (pow_le (Zdigits2 (Zpos m)) 24 ltac:(lia)) as PL.
      assert (D24 : Zdigits2 (Zpos m) = 24) by (apply digits_24; lia).
      split; [nia|]. rewrite OB by lia. replace (e + 150 =? 255) with false by lia. replace (e + 150 =? 0) with false by lia.
      replace (Zpos m - 2 ^ 23 + 2 ^ 23) with (Zpos m) by lia. f_equal. lia.
Qed.
Print Assumptions C68_bits_round_trip.

Lemma quote_ok c a m : ok (mid_price m) -> ok (volatility m) -> ok (fst (quote c a m)) /\ ok (snd (quote c a m)).
Proof. intros Om Ov. destruct (quote_val c a m Om Ov) as (A & B & _). auto. Qed.

(** From the host's input to the quote the host reads: for every trade and
    any contents of the padding, and whichever NaN the two sides use, the
    guest answers with eight bytes and the host reads the quote it would
    have computed itself. *)
Theorem C68_tape_to_tape : forall nan nan' c a m pad,
  0 <= nan < 2 ^ 32 -> of_bits nan = S754_nan -> 0 <= nan' < 2 ^ 32 -> of_bits nan' = S754_nan ->
  ok a -> ok (mid_price m) -> ok (window_volume m) -> ok (volatility m) ->
  exists out,
    otc_guest nan' (encode 8 pad 0 otc_input_ty (otc_input nan c a m)) = Some out /\
    length out = 8%nat /\ otc_read out = Some (quote c a m).
Proof.
  intros nan nan' c a m pad N NN N' NN' Oa Om Ow Ov.
  destruct (C68_bits_round_trip nan _ N NN Oa) as (Ra & Ba). destruct (C68_bits_round_trip nan _ N NN Om) as (Rm & Bm).
  destruct (C68_bits_round_trip nan _ N NN Ow) as (Rw & Bw). destruct (C68_bits_round_trip nan _ N NN Ov) as (Rv & Bv).
  change (2 ^ 32) with 4294967296 in *.
  assert (Ty : typed 8 otc_input_ty (otc_input nan c a m)).
  { unfold otc_input_ty, otc_input. cbn [typed]. repeat split; try lia; destruct c; cbn; lia. }
  destruct (PropGuests.C54_tape_round_trip otc_input_ty 8 4 pad 0 _ [] eq_refl (or_intror eq_refl) (or_introl eq_refl) Ty) as (_ & D & _).
  rewrite app_nil_r in D. unfold otc_guest. rewrite D. unfold otc_input. cbv iota beta.
  assert (C : client_of (client_id c) = Some c) by (destruct c; reflexivity). rewrite C. cbv iota beta. eexists. split; [reflexivity|].
  rewrite Ba, Bm, Bw, Bv. replace (mkMarket (mid_price m) (window_volume m) (volatility m)) with m by (destruct m; reflexivity).
  destruct (quote_ok c a m Om Ov) as (O1 & O2).
  destruct (C68_bits_round_trip nan' _ N' NN' O1) as (R1 & B1). destruct (C68_bits_round_trip nan' _ N' NN' O2) as (R2 & B2). change (2 ^ 32) with 4294967296 in *.
  assert (Ty' : typed 4 otc_output_ty (otc_output nan' (quote c a m))).
  { unfold otc_output_ty, otc_output. cbn [typed]. repeat split; lia. }
  destruct (PropGuests.C54_tape_round_trip otc_output_ty 4 8 (fun _ => 0) 0 _ [] eq_refl (or_introl eq_refl) (or_intror eq_refl) Ty') as (L & D' & _).
  rewrite app_nil_r in D'. split; [exact L|]. unfold otc_read. rewrite D'. unfold otc_output. cbv iota beta. rewrite B1, B2.
  destruct (quote c a m); reflexivity.
Qed.
Print Assumptions C68_tape_to_tape.

Example C68_case :
  of_bits 0x7FC00000 = S754_nan /\
  otc_guest 0x7FC00000 (encode 8 (fun _ => 7) 0 otc_input_ty (otc_input 0x7FC00000 PRIME (lit 5 1) default_market))
    = Some [124; 42; 122; 68; 132; 213; 121; 68].
Proof. split; vm_compute; reflexivity. Qed.
