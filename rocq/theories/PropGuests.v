(** * Properties of the shipped guests and of the tapes' layout

    C54 (layout), C55 (the exchange's product: false), C56 (what the exchange
    does do), C57 (string matching), C58 (the arithmetic guests). *)
Require Import ZArith List Bool Lia Arith.
Require Import Verif.Word Verif.Guests Verif.GuestSpec Verif.GuestFacts.
Import ListNotations.
Open Scope Z_scope.

(** ** C54: both sides of a tape agree on the layout *)

(** A value written by the host (pointers of 8 bytes) is read back by the
    guest (pointers of 4 bytes), and the other way round, for every type
    without pointer-sized integers, every value and any contents of the
    padding; the tape is as long as the guest's buffer; every scalar lies at
    a multiple of its width, apart from the others, inside the buffer, with
    its bytes least significant first. *)
Theorem C54_tape_round_trip : forall t w w' pad p v rest,
  portable t = true -> (w = 4 \/ w = 8)%nat -> (w' = 4 \/ w' = 8)%nat -> typed w t v ->
  let tape := encode w pad p t v in
  length tape = size w' t /\
  decode w' t (tape ++ rest) = Some v /\
  at_scalars (tape ++ rest) (scalars w' 0 t) (ints v).
Proof.
  intros t w w' pad p v rest Hp Hw Hw' Hv tape. subst tape.
  rewrite (portable_encode w w') by assumption.
  apply (portable_typed w w') in Hv; [|assumption].
  assert (1 <= w')%nat by lia.
  split; [apply encode_length; assumption|]. split; [apply decode_encode; assumption|].
  apply (encode_at_scalars w' pad t ltac:(assumption) p v [] rest 0%nat Hv eq_refl).
Qed.
Print Assumptions C54_tape_round_trip.

Theorem C54_scalars_aligned : forall t w base,
  (w = 4 \/ w = 8)%nat -> Nat.divide (align w t) base ->
  Forall (fun on => Nat.divide (snd on) (fst on)) (scalars w base t) /\
  apart base (scalars w base t) (base + size w t) /\
  Nat.divide (align w t) (size w t).
Proof.
  intros t w base Hw Hb.
  split; [apply scalars_aligned; assumption|].
  split; [apply scalars_apart; lia | apply size_divide; assumption].
Qed.
Print Assumptions C54_scalars_aligned.

(** The restriction is needed: with a pointer-sized field, the guest reads
    another value than the host wrote. *)
Theorem C54_usize_refuted : exists t v,
  typed 8 t v /\ typed 4 t v /\
  decode 4 t (encode 8 (fun _ => 0) 0 t v) <> Some v.
Proof.
  exists (TStruct [TU32; TUsize; TU32]), (VSeq [VInt 1; VInt 2; VInt 3]).
  repeat split; try (cbn; lia). vm_compute. discriminate.
Qed.
Print Assumptions C54_usize_refuted.

(** The shipped structures: offsets and widths of the fields, sizes. *)
Example C54_case :
  scalars 4 0 swap_input_ty = [(0, 4); (4, 4); (8, 4); (12, 1); (16, 4); (20, 4)]%nat /\
  size 4 swap_input_ty = 24%nat /\ size 4 swap_output_ty = 16%nat /\
  size 4 string_input_ty = 20%nat /\ size 4 string_output_ty = 1%nat /\
  scalars 4 0 test1_input_ty = [(0, 4); (4, 1)]%nat /\ size 4 test1_input_ty = 8%nat /\
  portable swap_input_ty = true /\
  decode 4 swap_input_ty
    (encode 8 (fun p => Z.of_nat p) 0 swap_input_ty
       (swap_input (mkPool 100 500) (mkTrade 50 true) (mkAccount 60 0)))
  = Some (swap_input (mkPool 100 500) (mkTrade 50 true) (mkAccount 60 0)).
Proof. vm_compute. repeat split. Qed.

(** ** Arithmetic *)
Lemma wadd_small : forall a b, 0 <= a + b < 4294967296 -> wadd a b = a + b.
Proof. intros. apply Z.mod_small. assumption. Qed.
Lemma wsub_small : forall a b, 0 <= a - b < 4294967296 -> wsub a b = a - b.
Proof. intros. apply Z.mod_small. assumption. Qed.
Lemma wmul_small : forall a b, 0 <= a * b < 4294967296 -> wmul a b = a * b.
Proof. intros. apply Z.mod_small. assumption. Qed.
Lemma u32_bound : forall x, 0 <= u32 x < 4294967296.
Proof. intros. apply Z.mod_pos_bound. lia. Qed.

Lemma ceil_div_sub : forall x y a, 0 < x + a ->
  y - x * y / (x + a) = ceil_div (y * a) (x + a).
Proof.
  intros x y a H. unfold ceil_div.
  replace (- (y * a)) with (x * y + (- y) * (x + a)) by ring.
  rewrite Z.div_add by lia. lia.
Qed.

(** The two directions are mirror images. *)
Definition flip_pool (p : pool) := mkPool (t1 p) (t0 p).
Definition flip_trade (t : trade) := mkTrade (amount t) (negb (direction t)).
Definition flip_account (a : account) := mkAccount (t1_balance a) (t0_balance a).
Definition flip_result (o : pool * account) := (flip_pool (fst o), flip_account (snd o)).

Lemma wmul_comm : forall a b, wmul a b = wmul b a.
Proof. intros. unfold wmul. rewrite Z.mul_comm. reflexivity. Qed.

Theorem C56_directions_mirror : forall asserts chk p t a,
  swap asserts chk (flip_pool p) (flip_trade t) (flip_account a)
  = option_map flip_result (swap asserts chk p t a).
Proof.
  intros asserts chk p t a. unfold swap. cbn [direction flip_trade amount t0 t1 flip_pool
    t0_balance t1_balance flip_account].
  rewrite (wmul_comm (t1 p) (t0 p)).
  destruct (direction t); cbn [negb].
  - destruct (asserts && negb (amount t <=? t0_balance a)); [reflexivity|].
    destruct (r_div _ _); [|reflexivity].
    destruct (r_sub chk (t1 p) z); [|reflexivity].
    destruct (r_sub chk (t1 p) z0); [|reflexivity].
    destruct (r_add chk (t0 p) (amount t)); [|reflexivity].
    destruct (r_sub chk (t0_balance a) (amount t)); [|reflexivity].
    destruct (r_add chk (t1_balance a) z0); reflexivity.
  - destruct (asserts && negb (amount t <=? t1_balance a)); [reflexivity|].
    destruct (r_div _ _); [|reflexivity].
    destruct (r_sub chk (t0 p) z); [|reflexivity].
    destruct (r_sub chk (t0 p) z0); [|reflexivity].
    destruct (r_add chk (t1 p) (amount t)); [|reflexivity].
    destruct (r_sub chk (t1_balance a) (amount t)); [|reflexivity].
    destruct (r_add chk (t0_balance a) z0); reflexivity.
Qed.
Print Assumptions C56_directions_mirror.

(** ** C55: the pool's product *)

(** Full statement (false): whenever the guest carries out a trade, without
    any overflow, the pool's product does not fall. *)
Definition C55_product_never_falls : Prop := forall p t a p' a',
  pool_ok p -> trade_ok t -> account_ok a -> product p < 4294967296 ->
  guest_swap p t a = Some (p', a') -> product p <= product p'.

(** The repository's own test values: 100 * 500 = 50000, afterwards
    150 * 333 = 49950 (uniswap/src/main.rs:55-63). *)
Theorem C55_product_refuted : ~ C55_product_never_falls.
Proof.
  intros H.
  specialize (H (mkPool 100 500) (mkTrade 50 true) (mkAccount 60 0)
                (mkPool 150 333) (mkAccount 10 167)).
  unfold pool_ok, trade_ok, account_ok, is_u32, product in H. cbn in H.
  assert (50000 <= 49950) by (apply H; try lia; reflexivity). lia.
Qed.
Print Assumptions C55_product_refuted.

(** What holds instead, for every trade without overflow: the product falls
    by less than the new balance of the token sold. *)
Theorem C55_product_bound : forall p t a p' a',
  pool_ok p -> trade_ok t -> account_ok a -> product p < 4294967296 ->
  direction t = true -> t0 p + amount t < 4294967296 ->
  guest_swap p t a = Some (p', a') ->
  t0 p' = t0 p + amount t /\
  product p' <= product p /\ product p - product p' < t0 p'.
Proof.
  intros p t a p' a' (Hp0 & Hp1) Ht (Ha0 & Ha1) Hk Hd Hs H.
  unfold guest_swap, swap in H. rewrite Hd in H. cbn [andb] in H.
  unfold trade_ok, is_u32, product in *.
  destruct (amount t <=? t0_balance a) eqn:E; cbn [negb] in H; [|discriminate].
  rewrite (wmul_small (t0 p) (t1 p)) in H by nia.
  rewrite (wadd_small (t0 p) (amount t)) in H by lia.
  unfold r_div in H. destruct (t0 p + amount t =? 0) eqn:E0; [discriminate|].
  apply Z.eqb_neq in E0. apply Z.leb_le in E.
  unfold r_sub, r_add in H. cbn [andb] in H.
  set (q := t0 p * t1 p / (t0 p + amount t)) in *.
  pose proof (Z.div_mod (t0 p * t1 p) (t0 p + amount t) ltac:(lia)) as Hdm. fold q in Hdm.
  pose proof (Z.mod_pos_bound (t0 p * t1 p) (t0 p + amount t) ltac:(lia)) as Hmb.
  assert (Hq0 : 0 <= q) by (apply Z.div_pos; nia).
  assert (Hq1 : q <= t1 p) by (apply Z.div_le_upper_bound; nia).
  rewrite (wsub_small (t1 p) q) in H by lia.
  rewrite (wsub_small (t1 p) (t1 p - q)) in H by lia.
  rewrite (wadd_small (t0 p) (amount t)) in H by lia.
  injection H as <- <-. cbn [t0 t1].
  replace (t1 p - (t1 p - q)) with q by lia.
  split; [reflexivity|]. split; nia.
Qed.
Print Assumptions C55_product_bound.

(** With 32-bit reserves whose product overflows, the loss is not bounded: a
    trade of nothing empties one side of the pool, for every balanced pool of
    2^16 of each. *)
Theorem C55_overflow_refuted : exists p t a p' a',
  pool_ok p /\ trade_ok t /\ account_ok a /\ amount t = 0 /\ 0 < t1 p /\
  guest_swap p t a = Some (p', a') /\ t1 p' = 0 /\ t1_balance a' = t1_balance a + t1 p.
Proof.
  exists (mkPool 65536 65536), (mkTrade 0 true), (mkAccount 0 0),
         (mkPool 65536 0), (mkAccount 0 65536).
  unfold pool_ok, trade_ok, account_ok, is_u32. cbn. repeat split; lia.
Qed.
Print Assumptions C55_overflow_refuted.

(** Sell one unit of t0 at a time. *)
Fixpoint sell_ones (n : nat) (p : pool) (a : account) : option (pool * account) :=
  match n with
  | O => Some (p, a)
  | S n' =>
      match guest_swap p (mkTrade 1 true) a with
      | Some (p', a') => sell_ones n' p' a'
      | None => None
      end
  end.

Lemma sell_one : forall p a,
  pool_ok p -> account_ok a ->
  1 <= t1 p <= t0 p + 1 -> (t0 p + t1 p) * t1 p < 4294967296 ->
  1 <= t0_balance a -> t1_balance a + 1 < 4294967296 ->
  guest_swap p (mkTrade 1 true) a
  = Some (mkPool (t0 p + 1) (t1 p - 1), mkAccount (t0_balance a - 1) (t1_balance a + 1)).
Proof.
  intros p a (Hp0 & Hp1) (Ha0 & Ha1) H1 Hk Hb Hb1. unfold is_u32 in *.
  unfold guest_swap, swap. cbn [direction amount andb].
  destruct (Z.leb_spec 1 (t0_balance a)); [|lia]. cbn [negb].
  rewrite (wmul_small (t0 p) (t1 p)) by nia.
  rewrite (wadd_small (t0 p) 1) by nia.
  unfold r_div. destruct (Z.eqb_spec (t0 p + 1) 0); [lia|].
  assert (Hq : t0 p * t1 p / (t0 p + 1) = t1 p - 1).
  { symmetry. apply Z.div_unique with (r := t0 p + 1 - t1 p); [left; lia|ring]. }
  rewrite Hq. unfold r_sub, r_add. cbn [andb].
  rewrite (wsub_small (t1 p) (t1 p - 1)) by lia.
  replace (t1 p - (t1 p - 1)) with 1 by lia.
  rewrite (wsub_small (t1 p) 1) by lia.
  rewrite (wadd_small (t0 p) 1) by nia.
  rewrite (wsub_small (t0_balance a) 1) by lia.
  rewrite (wadd_small (t1_balance a) 1) by lia.
  reflexivity.
Qed.

(** The bound of [C55_product_bound] is no protection: as every sale is
    rounded in the seller's favour, any pool holding at least as much t0 as
    t1 is emptied of its t1 by [t1] sales of one unit each, at the price of
    one t0 for each t1, whatever the pool's own price. *)
Theorem C55_pool_drained : forall p a,
  pool_ok p -> account_ok a ->
  1 <= t1 p <= t0 p -> (t0 p + t1 p) * t1 p < 4294967296 ->
  t1 p <= t0_balance a -> t1_balance a + t1 p < 4294967296 ->
  sell_ones (Z.to_nat (t1 p)) p a
  = Some (mkPool (t0 p + t1 p) 0,
          mkAccount (t0_balance a - t1 p) (t1_balance a + t1 p)).
Proof.
  intros p a Hp Ha H1 Hk Hb Hb1.
  assert (G : forall n p a, Z.of_nat n = t1 p -> pool_ok p -> account_ok a ->
            t1 p <= t0 p + 1 -> (t0 p + t1 p) * t1 p < 4294967296 ->
            t1 p <= t0_balance a -> t1_balance a + t1 p < 4294967296 ->
            sell_ones n p a = Some (mkPool (t0 p + t1 p) 0,
              mkAccount (t0_balance a - t1 p) (t1_balance a + t1 p))).
  { clear. induction n as [|n IH]; intros p a Hn Hp Ha H1 Hk Hb Hb1.
    - destruct p as [x y], a as [u v]. cbn [t0 t1 t0_balance t1_balance] in *.
      replace y with 0 by lia. cbn [sell_ones]. rewrite !Z.add_0_r, Z.sub_0_r. reflexivity.
    - cbn [sell_ones]. rewrite sell_one; try assumption; try lia.
      destruct Hp as (Hp0 & Hp1), Ha as (Ha0 & Ha1). unfold is_u32 in *.
      rewrite IH; cbn [t0 t1 t0_balance t1_balance];
        unfold pool_ok, account_ok, is_u32; cbn [t0 t1 t0_balance t1_balance];
        try lia; try nia.
      + do 2 f_equal; f_equal; lia.
  }
  apply G; try assumption; lia.
Qed.
Print Assumptions C55_pool_drained.

(** A pool of 40000 t0 and 100 t1 (one t1 is worth 400 t0): a hundred sales of
    one t0 each buy all of the t1. *)
Example C55_case :
  sell_ones 100 (mkPool 40000 100) (mkAccount 100 0) = Some (mkPool 40100 0, mkAccount 0 100) /\
  (* a single sale of the same 100 t0 would have bought *)
  guest_swap (mkPool 40000 100) (mkTrade 100 true) (mkAccount 100 0)
  = Some (mkPool 40100 99, mkAccount 0 1).
Proof. vm_compute. split; reflexivity. Qed.

(** ** C56: what the exchange does *)

(** Without overflow, selling t0 pays out the rounded-up constant-product
    amount, with the guest and with the host's recomputation under either
    profile; [C56_directions_mirror] gives the other direction. *)
Theorem C56_swap_exact : forall asserts chk p t a,
  pool_ok p -> trade_ok t -> account_ok a -> direction t = true ->
  amount t <= t0_balance a -> 0 < t0 p + amount t ->
  t0 p + amount t < 4294967296 -> product p < 4294967296 ->
  let out := ceil_div (t1 p * amount t) (t0 p + amount t) in
  t1_balance a + out < 4294967296 ->
  0 <= out <= t1 p /\
  swap asserts chk p t a
  = Some (mkPool (t0 p + amount t) (t1 p - out),
          mkAccount (t0_balance a - amount t) (t1_balance a + out)).
Proof.
  intros asserts chk p t a (Hp0 & Hp1) Ht (Ha0 & Ha1) Hd Hb Hpos Hs Hk out Hout.
  unfold trade_ok, is_u32, product in *.
  assert (Eo : t1 p - t0 p * t1 p / (t0 p + amount t) = out).
  { unfold out. apply ceil_div_sub. lia. }
  set (q := t0 p * t1 p / (t0 p + amount t)) in *.
  assert (Hq0 : 0 <= q) by (apply Z.div_pos; nia).
  assert (Hq1 : q <= t1 p) by (apply Z.div_le_upper_bound; nia).
  split; [lia|].
  unfold swap. rewrite Hd.
  destruct (Z.leb_spec (amount t) (t0_balance a)); [|lia]. cbn [negb].
  rewrite andb_false_r.
  rewrite (wmul_small (t0 p) (t1 p)) by nia.
  rewrite (wadd_small (t0 p) (amount t)) by lia.
  unfold r_div. destruct (Z.eqb_spec (t0 p + amount t) 0); [lia|]. fold q.
  unfold r_sub, r_add.
  destruct (Z.ltb_spec (t1 p) q); [lia|]. rewrite andb_false_r.
  rewrite (wsub_small (t1 p) q) by lia. rewrite Eo.
  destruct (Z.ltb_spec (t1 p) out); [lia|]. rewrite andb_false_r.
  destruct (Z.leb_spec 4294967296 (t0 p + amount t)); [lia|]. rewrite andb_false_r.
  destruct (Z.ltb_spec (t0_balance a) (amount t)); [lia|]. rewrite andb_false_r.
  destruct (Z.leb_spec 4294967296 (t1_balance a + out)); [lia|]. rewrite andb_false_r.
  rewrite (wsub_small (t1 p) out), (wadd_small (t0 p)), (wsub_small (t0_balance a)),
    (wadd_small (t1_balance a)) by lia.
  reflexivity.
Qed.
Print Assumptions C56_swap_exact.

(** The guest panics exactly when the balance does not cover the sale, or the
    new reserve is zero modulo 2^32. *)
Theorem C56_guest_panics_exactly : forall p t a,
  guest_swap p t a = None <->
  (if direction t then t0_balance a < amount t \/ (t0 p + amount t) mod 4294967296 = 0
   else t1_balance a < amount t \/ (t1 p + amount t) mod 4294967296 = 0).
Proof.
  intros p t a. unfold guest_swap, swap, r_div, r_sub, r_add. cbn [andb].
  unfold wadd at 1 2, u32 at 1 2.
  destruct (direction t).
  - destruct (Z.leb_spec (amount t) (t0_balance a)); cbn [negb].
    + unfold wadd at 1, u32 at 1.
      destruct (Z.eqb_spec ((t0 p + amount t) mod 4294967296) 0); split; intros; auto;
        try discriminate; lia.
    + split; intros; [left; lia|reflexivity].
  - destruct (Z.leb_spec (amount t) (t1_balance a)); cbn [negb].
    + unfold wadd at 1, u32 at 1.
      destruct (Z.eqb_spec ((t1 p + amount t) mod 4294967296) 0); split; intros; auto;
        try discriminate; lia.
    + split; intros; [left; lia|reflexivity].
Qed.
Print Assumptions C56_guest_panics_exactly.

(** No token is made or lost, modulo 2^32, by any run that ends, under any
    profile. *)
Theorem C56_tokens_conserved : forall asserts chk p t a p' a',
  swap asserts chk p t a = Some (p', a') ->
  (t0 p' + t0_balance a') mod 4294967296 = (t0 p + t0_balance a) mod 4294967296 /\
  (t1 p' + t1_balance a') mod 4294967296 = (t1 p + t1_balance a) mod 4294967296.
Proof.
  assert (Hadd : forall chk x y z, r_add chk x y = Some z -> z = (x + y) mod 4294967296).
  { intros chk x y z. unfold r_add, wadd, u32. destruct (chk && _); [discriminate|]. congruence. }
  assert (Hsub : forall chk x y z, r_sub chk x y = Some z -> z = (x - y) mod 4294967296).
  { intros chk x y z. unfold r_sub, wsub, u32. destruct (chk && _); [discriminate|]. congruence. }
  assert (Hc : forall x y z, (((x - z) mod 4294967296) + ((y + z) mod 4294967296)) mod 4294967296
               = (x + y) mod 4294967296).
  { intros. rewrite <- Zplus_mod. f_equal. ring. }
  assert (Hc' : forall x y z, (((x + z) mod 4294967296) + ((y - z) mod 4294967296)) mod 4294967296
               = (x + y) mod 4294967296).
  { intros. rewrite <- Zplus_mod. f_equal. ring. }
  intros asserts chk p t a p' a' H. unfold swap in H.
  destruct (direction t).
  - destruct (asserts && negb (amount t <=? t0_balance a)); [discriminate|].
    destruct (r_div _ _); [|discriminate].
    destruct (r_sub chk (t1 p) z) eqn:E1; [|discriminate].
    destruct (r_sub chk (t1 p) z0) eqn:E2; [|discriminate].
    destruct (r_add chk (t0 p) (amount t)) eqn:E3; [|discriminate].
    destruct (r_sub chk (t0_balance a) (amount t)) eqn:E4; [|discriminate].
    destruct (r_add chk (t1_balance a) z0) eqn:E5; [|discriminate].
    apply Hsub in E2, E4. apply Hadd in E3, E5. injection H as <- <-. cbn. subst.
    split; auto.
  - destruct (asserts && negb (amount t <=? t1_balance a)); [discriminate|].
    destruct (r_div _ _); [|discriminate].
    destruct (r_sub chk (t0 p) z) eqn:E1; [|discriminate].
    destruct (r_sub chk (t0 p) z0) eqn:E2; [|discriminate].
    destruct (r_add chk (t1 p) (amount t)) eqn:E3; [|discriminate].
    destruct (r_sub chk (t1_balance a) (amount t)) eqn:E4; [|discriminate].
    destruct (r_add chk (t0_balance a) z0) eqn:E5; [|discriminate].
    apply Hsub in E2, E4. apply Hadd in E3, E5. injection H as <- <-. cbn. subst.
    split; auto.
Qed.
Print Assumptions C56_tokens_conserved.

(** The host's recomputation agrees with every run of the guest that ends
    when the host is built like the guest; and whenever the host built with
    overflow checks accepts, the guest ends with the same result. *)
Theorem C56_host_agrees : forall p t a o,
  (guest_swap p t a = Some o -> host_swap false p t a = Some o) /\
  (host_swap true p t a = Some o -> guest_swap p t a = Some o).
Proof.
  assert (Hadd : forall x y z, r_add true x y = Some z -> r_add false x y = Some z).
  { intros x y z. unfold r_add. cbn [andb]. destruct (_ <=? _); [discriminate|auto]. }
  assert (Hsub : forall x y z, r_sub true x y = Some z -> r_sub false x y = Some z /\ y <= x).
  { intros x y z. unfold r_sub. cbn [andb]. destruct (Z.ltb_spec x y); [discriminate|auto]. }
  intros p t a o. split.
  - unfold guest_swap, host_swap, swap. cbn [andb]. destruct (direction t).
    + destruct (negb (amount t <=? t0_balance a)); [discriminate|auto].
    + destruct (negb (amount t <=? t1_balance a)); [discriminate|auto].
  - unfold guest_swap, host_swap, swap. cbn [andb]. destruct (direction t).
    + destruct (r_div _ _); [|discriminate].
      destruct (r_sub true (t1 p) z) eqn:E1; [|discriminate].
      destruct (r_sub true (t1 p) z0) eqn:E2; [|discriminate].
      destruct (r_add true (t0 p) (amount t)) eqn:E3; [|discriminate].
      destruct (r_sub true (t0_balance a) (amount t)) eqn:E4; [|discriminate].
      destruct (r_add true (t1_balance a) z0) eqn:E5; [|discriminate].
      apply Hsub in E1, E2, E4. apply Hadd in E3, E5.
      destruct E1 as [E1 _], E2 as [E2 _], E4 as [E4 L].
      destruct (Z.leb_spec (amount t) (t0_balance a)); [|lia]. cbn [negb].
      rewrite E1, E2, E3, E4, E5. auto.
    + destruct (r_div _ _); [|discriminate].
      destruct (r_sub true (t0 p) z) eqn:E1; [|discriminate].
      destruct (r_sub true (t0 p) z0) eqn:E2; [|discriminate].
      destruct (r_add true (t1 p) (amount t)) eqn:E3; [|discriminate].
      destruct (r_sub true (t1_balance a) (amount t)) eqn:E4; [|discriminate].
      destruct (r_add true (t0_balance a) z0) eqn:E5; [|discriminate].
      apply Hsub in E1, E2, E4. apply Hadd in E3, E5.
      destruct E1 as [E1 _], E2 as [E2 _], E4 as [E4 L].
      destruct (Z.leb_spec (amount t) (t1_balance a)); [|lia]. cbn [negb].
      rewrite E1, E2, E3, E4, E5. auto.
Qed.
Print Assumptions C56_host_agrees.

(** Results of the guest are again 32-bit words. *)
Lemma swap_words : forall asserts chk p t a p' a',
  swap asserts chk p t a = Some (p', a') -> pool_ok p' /\ account_ok a'.
Proof.
  assert (Hadd : forall chk x y z, r_add chk x y = Some z -> is_u32 z).
  { intros chk x y z. unfold r_add. destruct (chk && _); [discriminate|].
    intros E. injection E as <-. apply u32_bound. }
  assert (Hsub : forall chk x y z, r_sub chk x y = Some z -> is_u32 z).
  { intros chk x y z. unfold r_sub. destruct (chk && _); [discriminate|].
    intros E. injection E as <-. apply u32_bound. }
  intros asserts chk p t a p' a' H. unfold swap in H. unfold pool_ok, account_ok.
  destruct (direction t).
  - destruct (asserts && negb (amount t <=? t0_balance a)); [discriminate|].
    destruct (r_div _ _); [|discriminate].
    destruct (r_sub chk (t1 p) z) eqn:E1; [|discriminate].
    destruct (r_sub chk (t1 p) z0) eqn:E2; [|discriminate].
    destruct (r_add chk (t0 p) (amount t)) eqn:E3; [|discriminate].
    destruct (r_sub chk (t0_balance a) (amount t)) eqn:E4; [|discriminate].
    destruct (r_add chk (t1_balance a) z0) eqn:E5; [|discriminate].
    injection H as <- <-. cbn. eauto 8.
  - destruct (asserts && negb (amount t <=? t1_balance a)); [discriminate|].
    destruct (r_div _ _); [|discriminate].
    destruct (r_sub chk (t0 p) z) eqn:E1; [|discriminate].
    destruct (r_sub chk (t0 p) z0) eqn:E2; [|discriminate].
    destruct (r_add chk (t1 p) (amount t)) eqn:E3; [|discriminate].
    destruct (r_sub chk (t1_balance a) (amount t)) eqn:E4; [|discriminate].
    destruct (r_add chk (t0_balance a) z0) eqn:E5; [|discriminate].
    injection H as <- <-. cbn. eauto 8.
Qed.

(** From the host's input structure to the host's output structure: whatever
    the padding, the guest accepts the tape, its output is 16 bytes long, and
    the host decodes from it either the result of the trade or, exactly when
    the guest panicked, zeros; a trade that was carried out never looks like
    zeros. *)
Theorem C56_tape_to_tape : forall p t a pad,
  pool_ok p -> trade_ok t -> account_ok a ->
  exists out,
    swap_guest (encode 8 pad 0 swap_input_ty (swap_input p t a)) = Some out /\
    length out = 16%nat /\
    decode 8 swap_output_ty out
    = Some (swap_output (match guest_swap p t a with
                         | Some o => o
                         | None => (mkPool 0 0, mkAccount 0 0)
                         end)) /\
    (guest_swap p t a = None <-> out = repeat 0 16).
Proof.
  intros p t a pad Hp Ht Ha.
  assert (Ty : typed 8 swap_input_ty (swap_input p t a)).
  { destruct Hp, Ha. unfold trade_ok, is_u32 in *.
    unfold swap_input_ty, swap_input, pool_ty, trade_ty, account_ty. cbn.
    destruct (direction t); cbn; repeat split; try lia. }
  destruct (C54_tape_round_trip swap_input_ty 8 4 pad 0 _ [] eq_refl
              (or_intror eq_refl) (or_introl eq_refl) Ty) as (_ & D & _).
  rewrite app_nil_r in D.
  unfold swap_guest. rewrite D. unfold swap_input, swap_fields.
  replace (mkTrade (amount t) (b2w (direction t) =? 1)) with t
    by (destruct t as [am []]; reflexivity).
  replace (mkPool (t0 p) (t1 p)) with p by (destruct p; reflexivity).
  replace (mkAccount (t0_balance a) (t1_balance a)) with a by (destruct a; reflexivity).
  destruct (guest_swap p t a) as [[p' a']|] eqn:E.
  - eexists. split; [reflexivity|].
    destruct (swap_words _ _ _ _ _ _ _ E) as ((P0 & P1) & (A0 & A1)).
    assert (Ty' : typed 4 swap_output_ty (swap_output (p', a'))).
    { unfold is_u32 in *. unfold swap_output_ty, swap_output, pool_ty, account_ty. cbn.
      repeat split; lia. }
    destruct (C54_tape_round_trip swap_output_ty 4 8 (fun _ => 0) 0 _ [] eq_refl
                (or_introl eq_refl) (or_intror eq_refl) Ty') as (L & D' & _).
    rewrite app_nil_r in D'.
    split; [exact L|]. split; [exact D'|].
    split; [discriminate|]. intros Z0. exfalso. rewrite Z0 in D'.
    assert (D0 : decode 8 swap_output_ty (repeat 0 16)
                 = Some (swap_output (mkPool 0 0, mkAccount 0 0))) by reflexivity.
    rewrite D0 in D'. unfold swap_output in D'. cbn in D'. injection D' as Q0 Q1 _ _.
    (* the reserve of the token sold is the divisor, which was not zero *)
    unfold guest_swap, swap, r_div, r_sub, r_add in E. cbn [andb] in E.
    destruct (direction t).
    + destruct (negb (amount t <=? t0_balance a)); [discriminate|].
      destruct (Z.eqb_spec (wadd (t0 p) (amount t)) 0) as [|N]; [discriminate|].
      injection E as Ep _. rewrite <- Ep in Q0. cbn in Q0. congruence.
    + destruct (negb (amount t <=? t1_balance a)); [discriminate|].
      destruct (Z.eqb_spec (wadd (t1 p) (amount t)) 0) as [|N]; [discriminate|].
      injection E as Ep _. rewrite <- Ep in Q1. cbn in Q1. congruence.
  - exists (repeat 0 16). repeat split; reflexivity.
Qed.
Print Assumptions C56_tape_to_tape.

(** The repository's test values; a sale beyond the balance. *)
Example C56_case :
  guest_swap (mkPool 100 500) (mkTrade 50 true) (mkAccount 60 0)
  = Some (mkPool 150 333, mkAccount 10 167) /\
  guest_swap (mkPool 100 500) (mkTrade 61 true) (mkAccount 60 0) = None /\
  host_swap false (mkPool 100 500) (mkTrade 61 true) (mkAccount 60 0)
  = Some (mkPool 161 310, mkAccount 4294967295 190) /\
  host_swap true (mkPool 100 500) (mkTrade 61 true) (mkAccount 60 0) = None.
Proof. vm_compute. repeat split. Qed.

(** ** C57: string matching *)
Lemma set_nth_app : forall {A} (a b : list A) x y n,
  length a = n -> set_nth (a ++ y :: b) n x = Some (a ++ x :: b).
Proof.
  intros A a. induction a as [|h t IH]; intros b x y n H; cbn in *; subst n; [reflexivity|].
  rewrite (IH b x y (length t) eq_refl). reflexivity.
Qed.

Lemma bounded_new_fill : forall s pre k,
  (length s <= k)%nat ->
  fold_left (fun acc (ib : nat * Z) =>
      match acc with Some l => set_nth l (fst ib) (snd ib) | None => None end)
    (combine (seq (length pre) (length s)) s) (Some (pre ++ repeat 0 k))
  = Some (pre ++ s ++ repeat 0 (k - length s)).
Proof.
  induction s as [|x s IH]; intros pre k H; cbn [length seq combine fold_left].
  - rewrite Nat.sub_0_r. reflexivity.
  - cbn [length] in H. destruct k as [|k]; [lia|]. cbn [repeat fst snd].
    rewrite (set_nth_app pre (repeat 0 k) x 0 (length pre) eq_refl).
    specialize (IH (pre ++ [x]) k ltac:(lia)).
    rewrite app_length in IH. cbn [length] in IH. rewrite Nat.add_1_r in IH.
    rewrite <- !app_assoc in IH. cbn [app] in IH. rewrite IH. reflexivity.
Qed.

(** [UpperBoundedString::new]: the string and zeros, or a panic above 20. *)
Theorem C57_new_exact : forall s,
  bounded_new s = if (length s <=? 20)%nat then Some (s ++ repeat 0 (20 - length s)) else None.
Proof.
  intros s. unfold bounded_new, max_length.
  destruct (Nat.ltb_spec 20 (length s)); destruct (Nat.leb_spec (length s) 20); try lia;
    [reflexivity|].
  exact (bounded_new_fill s [] 20 H0).
Qed.
Print Assumptions C57_new_exact.

Lemma eq_from : forall n i a b, length a = (i + n)%nat -> length b = (i + n)%nat ->
  bounded_eq_from n i a b = Some true /\ skipn i a = skipn i b \/
  bounded_eq_from n i a b = Some false /\ skipn i a <> skipn i b.
Proof.
  induction n as [|n IH]; intros i a b Ha Hb.
  - left. split; [reflexivity|]. rewrite !skipn_all2 by lia. reflexivity.
  - cbn [bounded_eq_from].
    destruct (nth_error a i) as [x|] eqn:Ex; [|apply nth_error_None in Ex; lia].
    destruct (nth_error b i) as [y|] eqn:Ey; [|apply nth_error_None in Ey; lia].
    assert (Sk : forall (l : list Z) z, nth_error l i = Some z -> skipn i l = z :: skipn (S i) l).
    { clear. intros l. revert l. induction i as [|i IHi]; intros [|h t] z H; cbn in H;
        try discriminate.
      - injection H as ->. reflexivity.
      - change (skipn i t = z :: skipn (S i) t). apply IHi. exact H. }
    rewrite (Sk a x Ex), (Sk b y Ey).
    destruct (Z.eqb_spec x y) as [->|N]; cbn [negb].
    + destruct (IH (S i) a b ltac:(lia) ltac:(lia)) as [[E1 E2]|[E1 E2]].
      * left. split; [exact E1|]. rewrite E2. reflexivity.
      * right. split; [exact E1|]. intros C. apply E2. congruence.
    + right. split; [reflexivity|]. congruence.
Qed.

(** Comparison is equality of the twenty bytes. *)
Theorem C57_eq_exact : forall a b, length a = 20%nat -> length b = 20%nat ->
  exists r, bounded_eq a b = Some r /\ (r = true <-> a = b).
Proof.
  intros a b Ha Hb. unfold bounded_eq, max_length.
  destruct (eq_from 20 0 a b Ha Hb) as [[E1 E2]|[E1 E2]]; cbn [skipn] in E2.
  - exists true. split; [exact E1|]. tauto.
  - exists false. split; [exact E1|]. split; [discriminate|]. intros; contradiction.
Qed.
Print Assumptions C57_eq_exact.

Definition byte (z : Z) : Prop := 0 <= z < 256.

(** The guest on the host's tape: for every string of at most 20 bytes, the
    output is one byte, 1 exactly when the string is "mississippi" followed
    by any number of NUL bytes, else 0; the host expects the same. *)
Theorem C57_match_exact : forall s pad bounded,
  Forall byte s -> bounded_new s = Some bounded ->
  exists r,
    string_guest (encode 8 pad 0 string_input_ty (string_input bounded)) = Some [b2w r] /\
    string_host s = Some r /\
    (r = true <-> s = hidden ++ repeat 0 (length s - 11) /\ (11 <= length s)%nat).
Proof.
  intros s pad bounded Hs Hn. pose proof Hn as Hn'. rewrite C57_new_exact in Hn'.
  destruct (Nat.leb_spec (length s) 20) as [Hl|]; [|discriminate].
  assert (Eb : bounded = s ++ repeat 0 (20 - length s)) by congruence. clear Hn'.
  assert (Lb : length bounded = 20%nat).
  { rewrite Eb, app_length, repeat_length. lia. }
  assert (Fb : Forall byte bounded).
  { rewrite Eb. apply Forall_app. split; [exact Hs|]. apply Forall_forall. intros x Hx.
    apply repeat_spec in Hx. subst x. unfold byte. lia. }
  assert (Ty : typed 8 string_input_ty (string_input bounded)).
  { unfold string_input_ty, string_input.


    cbn [typed]. repeat split.
    - rewrite map_length. exact Lb.
    - apply Forall_forall. intros v Hv. apply in_map_iff in Hv. destruct Hv as (z & <- & Hz).
      rewrite Forall_forall in Fb. apply Fb in Hz. exact Hz. }
  destruct (C54_tape_round_trip string_input_ty 8 4 pad 0 _ [] eq_refl
              (or_intror eq_refl) (or_introl eq_refl) Ty) as (_ & D & _).
  rewrite app_nil_r in D.
  assert (Lh : exists h, bounded_new hidden = Some h /\ length h = 20%nat /\
                         h = hidden ++ repeat 0 9).
  { eexists. split; [reflexivity|]. split; reflexivity. }
  destruct Lh as (h & Hh & Lh & Eh).
  destruct (C57_eq_exact h bounded Lh Lb) as (r & Er & Hr).
  destruct (C57_eq_exact bounded h Lb Lh) as (r' & Er' & Hr').
  assert (r' = r).
  { destruct r, r'; try reflexivity.
    - apply Hr'. symmetry. apply Hr. reflexivity.
    - symmetry. apply Hr. symmetry. apply Hr'. reflexivity. }
  subst r'. exists r. split.
  { unfold string_guest. rewrite D. unfold string_input, string_bytes. rewrite map_map.
    rewrite map_id. rewrite Hh, Er. destruct r; reflexivity. }
  split; [unfold string_host; rewrite Hn, Hh; exact Er'|].
  rewrite Hr, Eh, Eb.
  split.
  - intros E.
    assert (G : forall n, (n <= 20)%nat -> firstn n (hidden ++ repeat 0 9) = s ->
                (11 <= n)%nat -> s = hidden ++ repeat 0 (n - 11)).
    { intros n Hn20 <- H11.
      rewrite firstn_app. replace (length hidden) with 11%nat by reflexivity.
      rewrite firstn_all2 by (cbn; lia). f_equal.
      assert (F : forall k m, (k <= m)%nat -> firstn k (repeat 0 m) = repeat 0 k).
      { clear. induction k; intros [|m] H; cbn; try lia; try reflexivity.
        f_equal. apply IHk. lia. }
      apply F. lia. }
    assert (Hf : firstn (length s) (hidden ++ repeat 0 9) = s).
    { rewrite E. rewrite firstn_app, Nat.sub_diag, firstn_all. cbn. apply app_nil_r. }
    assert (H11 : (11 <= length s)%nat).
    { destruct (Nat.le_gt_cases 11 (length s)) as [L|L]; [exact L|exfalso].
      (* byte 10 of the left is 105, of the right a padding zero *)
      assert (N : nth 10 (hidden ++ repeat 0 9) 0 = nth 10 (s ++ repeat 0 (20 - length s)) 0)
        by (rewrite E; reflexivity).
      rewrite (app_nth2 s) in N by lia.
      rewrite nth_repeat in N. cbn in N. discriminate. }
    split; [apply G; [lia|exact Hf|exact H11]|exact H11].
  - intros [E H11].
    rewrite E at 1. rewrite <- app_assoc, <- repeat_app.
    do 2 f_equal. lia.
Qed.
Print Assumptions C57_match_exact.

(** Finding: the guest does not tell a string from the same string with NULs
    after it, so "matches exactly the hidden string" is false. *)
Theorem C57_trailing_nul_refuted : exists s,
  Forall byte s /\ (length s <= 20)%nat /\ s <> hidden /\ string_host s = Some true.
Proof.
  exists (hidden ++ [0]). split.
  { unfold hidden, byte. cbn [app]. repeat apply Forall_cons; try apply Forall_nil; lia. }
  split; [cbn; lia|]. split; [discriminate|reflexivity].
Qed.
Print Assumptions C57_trailing_nul_refuted.

Example C57_case :
  string_host hidden = Some true /\
  (* "not-mississippi", string-match/src/main.rs:62 *)
  string_host ([110; 111; 116; 45] ++ hidden) = Some false /\
  bounded_new (hidden ++ hidden) = None.
Proof. vm_compute. repeat split. Qed.

(** ** C58: the arithmetic guests *)
Lemma r_mul_false : forall a b, r_mul false a b = Some ((a * b) mod 4294967296).
Proof. reflexivity. Qed.
Lemma r_add_false : forall a b, r_add false a b = Some ((a + b) mod 4294967296).
Proof. reflexivity. Qed.

Lemma evaluate_mod : forall cs x e q,
  evaluate false cs x (e mod 4294967296) (q mod 4294967296)
  = Some ((e + q * poly cs x) mod 4294967296).
Proof.
  induction cs as [|c r IH]; intros x e q; cbn [evaluate poly].
  - rewrite Z.mul_0_r, Z.add_0_r. reflexivity.
  - rewrite r_mul_false, r_add_false, r_mul_false.

    replace ((e mod 4294967296 + (c * (q mod 4294967296)) mod 4294967296) mod 4294967296)
      with ((e + c * q) mod 4294967296)
      by (rewrite Zmult_mod_idemp_r, <- Zplus_mod; reflexivity).
    rewrite Zmult_mod_idemp_l. rewrite IH. do 2 f_equal. ring.
Qed.

(** The template guest computes the polynomial modulo 2^32, for every point. *)
Theorem C58_template_exact : forall x,
  template false x = Some (poly coefficients x mod 4294967296).
Proof.
  intros x. unfold template.
  change (evaluate false coefficients x (0 mod 4294967296) (1 mod 4294967296)
          = Some (poly coefficients x mod 4294967296)).
  rewrite evaluate_mod. do 2 f_equal. ring.
Qed.
Print Assumptions C58_template_exact.

Lemma evaluate_checked : forall cs x e q r,
  0 <= x -> 0 <= e < 4294967296 -> 0 <= q < 4294967296 -> Forall (fun c => 0 <= c) cs ->
  evaluate true cs x e q = Some r -> r = e + q * poly cs x /\ 0 <= r < 4294967296.
Proof.
  induction cs as [|c cs IH]; intros x e q r Hx He Hq Hc H; cbn [evaluate poly] in H |- *.
  - injection H as <-. rewrite Z.mul_0_r. lia.
  - inversion Hc as [|? ? Hc0 Hcs]; subst.
    unfold r_mul at 1 in H. cbn [andb] in H.
    destruct (Z.leb_spec 4294967296 (c * q)); [discriminate|].
    rewrite (wmul_small c q) in H by nia.
    unfold r_add in H. cbn [andb] in H.
    destruct (Z.leb_spec 4294967296 (e + c * q)); [discriminate|].
    rewrite (wadd_small e (c * q)) in H by nia.
    unfold r_mul in H. cbn [andb] in H.
    destruct (Z.leb_spec 4294967296 (q * x)); [discriminate|].
    rewrite (wmul_small q x) in H by nia.
    apply IH in H; [|assumption|nia|nia|assumption].
    destruct H as [-> Hb]. split; [ring|exact Hb].
Qed.

Lemma poly_19 : forall x, 19 <= x -> 4294967296 <= poly coefficients x.
Proof.
  intros x H. unfold coefficients. cbn [poly].
  assert (G : forall c m p, 0 <= m -> m <= p -> c + 19 * m <= c + x * p) by (intros; nia).
  assert (H0 : 89 <= 89 + x * 0) by lia.
  pose proof (G 7 89 _ ltac:(lia) H0) as H1.
  change (7 + 19 * 89) with 1698 in H1.
  pose proof (G 3456 1698 _ ltac:(lia) H1) as H2.
  change (3456 + 19 * 1698) with 35718 in H2.
  pose proof (G 12 35718 _ ltac:(lia) H2) as H3.
  change (12 + 19 * 35718) with 678654 in H3.
  pose proof (G 789 678654 _ ltac:(lia) H3) as H4.
  change (789 + 19 * 678654) with 12895215 in H4.
  pose proof (G 456 12895215 _ ltac:(lia) H4) as H5.
  change (456 + 19 * 12895215) with 245009541 in H5.
  pose proof (G 123 245009541 _ ltac:(lia) H5) as H6.
  eapply Z.le_trans; [|exact H6]. vm_compute. discriminate.
Qed.

(** The host's expectation with overflow checks (the default of `cargo run`)
    panics exactly for points above 18; the template's own test point, 123,
    is one of them (template/src/main.rs:43). *)
Theorem C58_host_checked_exactly : forall x, 0 <= x < 4294967296 ->
  template true x = if x <=? 18 then Some (poly coefficients x) else None.
Proof.
  intros x Hx. destruct (Z.leb_spec x 18).
  - assert (C : x = 0 \/ x = 1 \/ x = 2 \/ x = 3 \/ x = 4 \/ x = 5 \/ x = 6 \/ x = 7 \/ x = 8
      \/ x = 9 \/ x = 10 \/ x = 11 \/ x = 12 \/ x = 13 \/ x = 14 \/ x = 15 \/ x = 16
      \/ x = 17 \/ x = 18) by lia.
    repeat match goal with H : _ \/ _ |- _ => destruct H as [H|H] end; subst x; reflexivity.
  - destruct (template true x) as [r|] eqn:E; [|reflexivity]. exfalso.
    unfold template in E. apply evaluate_checked in E; try lia.
    + destruct E as [-> Hb]. pose proof (poly_19 x ltac:(lia)). lia.
    + unfold coefficients. repeat apply Forall_cons; try apply Forall_nil; lia.
Qed.
Print Assumptions C58_host_checked_exactly.

(** guest-test1: 4a + 100 or 100a, modulo 2^32. *)
Theorem C58_test1_exact : forall a branch,
  guest_test1 false a branch
  = Some ((if branch then 4 * a + 100 else 100 * a) mod 4294967296).
Proof.
  intros a branch. unfold guest_test1, hardcoded.
  assert (Hs : forall vs e,
    fold_left (fun acc v => match acc with
                            | Some x => match r_add false x a with
                                        | Some y => r_add false y v | None => None end
                            | None => None end) vs (Some (e mod 4294967296))
    = Some ((fold_left (fun x v => x + a + v) vs e) mod 4294967296)).
  { induction vs as [|v vs IH]; intros e; cbn [fold_left]; [reflexivity|].
    rewrite r_add_false. cbv iota beta. rewrite r_add_false.
    rewrite Zplus_mod_idemp_l, <- Zplus_assoc, Zplus_mod_idemp_l, Zplus_assoc. apply IH. }
  assert (Hm : forall vs e,
    fold_left (fun acc v => match acc with
                            | Some x => match r_mul false a v with
                                        | Some y => r_add false x y | None => None end
                            | None => None end) vs (Some (e mod 4294967296))
    = Some ((fold_left (fun x v => x + a * v) vs e) mod 4294967296)).
  { induction vs as [|v vs IH]; intros e; cbn [fold_left]; [reflexivity|].
    rewrite r_mul_false. cbv iota beta. rewrite r_add_false.
    rewrite <- Zplus_mod. apply IH. }
  change (Some 0) with (Some (0 mod 4294967296)).
  destruct branch; [rewrite Hs | rewrite Hm]; cbn [fold_left]; do 2 f_equal; ring.
Qed.
Print Assumptions C58_test1_exact.

(** Tape to tape, for both. *)
Theorem C58_tape_to_tape : forall x b pad, is_u32 x ->
  (exists out,
     template_guest (encode 8 pad 0 template_input_ty (VSeq [VInt x])) = Some out /\
     decode 8 template_output_ty out = Some (VSeq [VInt (poly coefficients x mod 4294967296)])) /\
  (exists out,
     test1_guest (encode 8 pad 0 test1_input_ty (VSeq [VInt x; VInt (b2w b)])) = Some out /\
     decode 8 test1_output_ty out
     = Some (VSeq [VInt ((if b then 4 * x + 100 else 100 * x) mod 4294967296)])).
Proof.
  intros x b pad Hx. unfold is_u32 in Hx.
  assert (M : forall z, 0 <= z mod 4294967296 < 4294967296)
    by (intros; apply Z.mod_pos_bound; lia).
  split.
  - assert (Ty : typed 8 template_input_ty (VSeq [VInt x])) by (cbn; lia).
    destruct (C54_tape_round_trip template_input_ty 8 4 pad 0 _ [] eq_refl
                (or_intror eq_refl) (or_introl eq_refl) Ty) as (_ & D & _).
    rewrite app_nil_r in D. unfold template_guest. rewrite D, C58_template_exact.
    eexists. split; [reflexivity|].
    assert (Ty' : typed 4 template_output_ty
                    (VSeq [VInt (poly coefficients x mod 4294967296)])).
    { split; [apply M|exact I]. }
    destruct (C54_tape_round_trip template_output_ty 4 8 (fun _ => 0) 0 _ [] eq_refl
                (or_introl eq_refl) (or_intror eq_refl) Ty') as (_ & D' & _).
    rewrite app_nil_r in D'. exact D'.
  - assert (Ty : typed 8 test1_input_ty (VSeq [VInt x; VInt (b2w b)]))
      by (destruct b; cbn; lia).
    destruct (C54_tape_round_trip test1_input_ty 8 4 pad 0 _ [] eq_refl
                (or_intror eq_refl) (or_introl eq_refl) Ty) as (_ & D & _).
    rewrite app_nil_r in D. unfold test1_guest. rewrite D.
    replace (b2w b =? 1) with b by (destruct b; reflexivity).
    rewrite C58_test1_exact.
    eexists. split; [reflexivity|].
    assert (Ty' : typed 4 test1_output_ty
              (VSeq [VInt ((if b then 4 * x + 100 else 100 * x) mod 4294967296)])).
    { split; [apply M|exact I]. }
    destruct (C54_tape_round_trip test1_output_ty 4 8 (fun _ => 0) 0 _ [] eq_refl
                (or_introl eq_refl) (or_intror eq_refl) Ty') as (_ & D' & _).
    rewrite app_nil_r in D'. exact D'.
Qed.
Print Assumptions C58_tape_to_tape.

Example C58_case :
  template false 123 = Some (poly coefficients 123 mod 4294967296) /\
  template true 123 = None /\ template true 18 = Some (poly coefficients 18) /\
  guest_test1 false 10 true = Some 140 /\ guest_test1 false 10 false = Some 1000.
Proof. vm_compute. repeat split. Qed.
