(** * C101: the text of the guest programs and of their allocator

    What [tools/gen_guest.py] makes of the guests' [main], of the allocator and of
    the functions that make the test cases of guest-test1 is the model of Guests.v,
    Otc.v and Alloc.v, under every compiler profile and for every input. *)
Require Import ZArith List Bool Lia Arith.
From Coq Require Import Floats.SpecFloat.
From Verif Require Import Rust RustIter RustStr RustGuest TextGuestFacts.
Require Verif.TextAlloc Verif.TextGuestSwap Verif.TextGuestMatch Verif.TextGuestPoly Verif.TextGuestOtc Verif.TextGuestTest1 Verif.TextGenTests.
Require Verif.PropAlloc Verif.PropGuests Verif.PropOtc Verif.GuestSpec.
Import ListNotations.
Open Scope Z_scope.
Module TA := Verif.TextAlloc.
Module TS := Verif.TextGuestSwap.
Module TM := Verif.TextGuestMatch.
Module TP := Verif.TextGuestPoly.
Module TO := Verif.TextGuestOtc.
Module T1 := Verif.TextGuestTest1.
Module TG := Verif.TextGenTests.
Module O := Verif.Otc.

(** ** the allocator *)
Theorem C101_alloc : forall p end_ pos sp bytes align,
  word end_ -> word pos -> word sp -> word bytes -> word align ->
  TA.alloc_sys_alloc_aligned p (Int end_) (Int pos) (Int sp) (Int bytes) (Int align) =
  option_map (fun r => (Int (fst r), Int (snd r))) (A.sys_alloc_aligned (chk p) end_ pos bytes align sp).
Proof.
  intros p end_ pos sp bytes align HE HP HS HB HA.
  unfold TA.alloc_sys_alloc_aligned, A.sys_alloc_aligned. cbv zeta.
  assert (CA : forall a b, word a -> word b -> checked_add (@Int U32 a) (Int b) = option_map Int (A.add_or_panic a b)).
  { intros a b Ha Hb. unfold checked_add, A.add_or_panic. cbn [val]. rewrite fits_u32. unfold word in *.
    replace (0 <=? a + b) with true by lia. cbn [andb]. destruct (a + b <? 4294967296); reflexivity. }
  assert (AW : forall a b r, word a -> word b -> A.add_or_panic a b = Some r -> word r).
  { intros a b r Ha Hb. unfold A.add_or_panic, word in *. destruct (Z.ltb_spec (a + b) 4294967296); [|discriminate]. injection 1 as <-. lia. }
  assert (MW : forall m, A.pred_usize (chk p) align = Some m -> word m).
  { unfold A.pred_usize, word in *. intro m. destruct (Z.eqb_spec align 0); [destruct (chk p); [discriminate|]|]; injection 1 as <-; lia. }
  set (h := if pos =? 0 then end_ else pos). assert (Hh : word h) by (unfold h; destruct (pos =? 0); assumption).
  lazymatch goal with |- match ?x with _ => _ end = _ => replace x with (Some (@Int U32 h)) by (unfold h, Rust.eq, lit; cbn [val]; destruct (pos =? 0); reflexivity) end.
  replace (Rust.sub p (Int align) (lit 1)) with (option_map (@Int U32) (A.pred_usize (chk p) align)).
  2: { unfold lit. rewrite sub_word by (try assumption; unfold word; lia). f_equal. unfold A.pred_usize, G.r_sub, W.wsub, W.u32, word in *.
    destruct (Z.eqb_spec align 0) as [->|]; [destruct (chk p); reflexivity|].
    destruct (Z.ltb_spec align 1); [lia|]. rewrite andb_false_r, Z.mod_small by lia. reflexivity. }
  destruct (A.pred_usize (chk p) align) as [m|] eqn:EM; [|reflexivity]. cbn [option_map]. specialize (MW m eq_refl).
  unfold band. cbn [val]. set (o := Z.land h m).
  assert (Ho : word o).
  { unfold o, word in *. assert (L : 0 <= Z.land h m) by (apply Z.land_nonneg; lia). split; [exact L|].
    destruct (Z.eq_dec (Z.land h m) 0); [lia|]. change 4294967296 with (2 ^ 32). apply Z.log2_lt_pow2; [lia|].
    eapply Z.le_lt_trans; [apply Z.log2_land; lia|]. apply Z.min_lt_iff. left.
    destruct (Z.eq_dec h 0) as [->|]; [cbn; lia|]. apply Z.log2_lt_pow2; lia. }
  assert (OA : o <> 0 -> 0 <= align - o \/ align = 0).
  { unfold o. unfold A.pred_usize in EM. destruct (Z.eqb_spec align 0) as [|NZ]; [auto|]. injection EM as <-. intros _. left.
    unfold word in *. assert (Z.land h (align - 1) <= align - 1); [|lia].
    clear -HA NZ. assert (X : Z.land h (align - 1) + Z.ldiff (align - 1) h = align - 1).
    { rewrite Z.add_nocarry_lxor.
      - apply Z.bits_inj'. intros i Hi. rewrite Z.lxor_spec, Z.land_spec, Z.ldiff_spec. destruct (Z.testbit (align - 1) i), (Z.testbit h i); reflexivity.
      - apply Z.bits_inj'. intros i Hi. rewrite !Z.land_spec, Z.ldiff_spec, Z.bits_0. destruct (Z.testbit (align - 1) i), (Z.testbit h i); reflexivity. }
    assert (0 <= Z.ldiff (align - 1) h) by (apply Z.ldiff_nonneg; lia). lia. }
  lazymatch goal with |- match ?x with _ => _ end = _ =>
    replace x with (option_map (@Int U32) (if o =? 0 then Some h else A.add_or_panic h (W.u32 (align - o)))) end.
  2: { unfold ne, lit. cbn [val]. destruct (Z.eqb_spec o 0) as [E|E]; cbn [negb]; [reflexivity|].
    rewrite sub_word by assumption. unfold G.r_sub. fold (W.wsub align o).
    assert (N : chk p && (align <? o) = false).
    { destruct (OA E) as [OA'|OA']; [rewrite (proj2 (Z.ltb_ge align o)) by lia; apply andb_false_r|].
      unfold A.pred_usize in EM. rewrite OA' in EM. cbn in EM. destruct (chk p); [discriminate|reflexivity]. }
    rewrite N. cbn [option_map]. rewrite CA by (try assumption; apply word_u32). unfold W.wsub.
    destruct (A.add_or_panic h _); reflexivity. }
  destruct (if o =? 0 then Some h else A.add_or_panic h (W.u32 (align - o))) as [q|] eqn:EQ; [|reflexivity]. cbn [option_map].
  assert (Hq : word q). { destruct (o =? 0); [injection EQ as <-; exact Hh|]. eapply AW; [| |exact EQ]; [exact Hh|apply word_u32]. }
  rewrite CA by assumption. destruct (A.add_or_panic q bytes) as [h'|] eqn:EB; [|reflexivity]. cbn [option_map].
  assert (Hh' : word h') by (eapply AW; [| |exact EB]; assumption).
  unfold TA.alloc_MEMORY_GAP, lit. rewrite CA by (try assumption; unfold word; lia). change 256 with A.MEMORY_GAP.
  destruct (A.add_or_panic h' A.MEMORY_GAP) as [g|]; [|reflexivity]. cbn [option_map]. unfold gt. cbn [val]. rewrite Z.gtb_ltb.
  destruct (sp <? g); reflexivity.
Qed.
Print Assumptions C101_alloc.

(** the text, in terms of C42: the first aligned block, if it ends 256 bytes
    below the stack pointer *)
Theorem C101_alloc_block : forall p end_ pos sp bytes k,
  0 < end_ < 2 ^ 32 -> word pos -> word sp -> word bytes -> 0 <= k < 32 ->
  let free := if pos =? 0 then end_ else pos in
  exists y, (2 ^ k | y) /\ free <= y < free + 2 ^ k /\
    TA.alloc_sys_alloc_aligned p (Int end_) (Int pos) (Int sp) (Int bytes) (Int (2 ^ k)) =
    if y + bytes + 256 <=? sp then Some (Int (y + bytes), Int y) else None.
Proof.
  intros p end_ pos sp bytes k HE HP HS HB HK free.
  assert (K : word (2 ^ k)). { unfold word. split; [apply Z.pow_nonneg; lia|]. change 4294967296 with (2 ^ 32). apply Z.pow_lt_mono_r; lia. }
  destruct (PropAlloc.C42_request (chk p) end_ pos (A.Request bytes (2 ^ k) sp)) as (y & (D & B) & E); try assumption.
  - split; [exact HB|]. exists k. split; [exact HK|reflexivity].
  - exists y. split; [exact D|]. split; [exact B|]. cbn [A.r_size A.r_align A.r_sp] in E.
    rewrite C101_alloc; try assumption; [|unfold word; lia]. rewrite E. destruct (_ <=? sp); reflexivity.
Qed.
Print Assumptions C101_alloc_block.
Example C101_alloc_case :
  let p := Build_profile false false in
  TA.alloc_sys_alloc_aligned p (Int 0x40123) (Int 0) (Int 0x7fff0) (Int 100) (Int 16) = Some (Int 0x40194, Int 0x40130) /\
  TA.alloc_sys_alloc_aligned p (Int 0x40123) (Int 0x40194) (Int 0x40200) (Int 1) (Int 4) = None.
Proof. vm_compute. split; reflexivity. Qed.

(** ** uniswap *)
Definition t_pool (x : G.pool) : TS.Pool := TS.mk_Pool (Int (G.t0 x)) (Int (G.t1 x)).
Definition t_trade (x : G.trade) : TS.Trade := TS.mk_Trade (Int (G.amount x)) (G.direction x).
Definition t_account (x : G.account) : TS.Account := TS.mk_Account (Int (G.t0_balance x)) (Int (G.t1_balance x)).
Definition pool_words (x : G.pool) : Prop := word (G.t0 x) /\ word (G.t1 x).
Definition account_words (x : G.account) : Prop := word (G.t0_balance x) /\ word (G.t1_balance x).

Theorem C101_swap : forall p l t a, pool_words l -> word (G.amount t) -> account_words a ->
  TS.guest_main p (TS.mk_Input (t_pool l) (t_trade t) (t_account a)) =
  option_map (fun o => TS.mk_Output (t_pool (fst o)) (t_account (snd o))) (G.swap true (chk p) l t a).
Proof.
  intros p [x0 x1] [am d] [b0 b1] (X0 & X1) AM (B0 & B1).
  cbn [G.t0 G.t1 G.amount G.t0_balance G.t1_balance G.direction] in *.
  unfold TS.guest_main, G.swap, t_pool, t_trade, t_account.
  cbn [TS.Input_pool TS.Input_trade TS.Input_account TS.Pool_t0 TS.Pool_t1 TS.Trade_amount TS.Trade_direction TS.Account_t0_balance TS.Account_t1_balance
       G.t0 G.t1 G.amount G.t0_balance G.t1_balance G.direction].
  cbv zeta. change (wrapping_mul (@Int U32 x0) (Int x1)) with (@Int U32 (W.wmul x0 x1)).
  pose proof (word_u32 (x0 * x1)) as K. fold (W.wmul x0 x1) in K. set (k := W.wmul x0 x1) in *. clearbody k.
  destruct d; cbn [Bool.eqb andb].
  - change (wrapping_add (@Int U32 x0) (Int am)) with (@Int U32 (W.wadd x0 am)).
    pose proof (word_u32 (x0 + am)) as D. fold (W.wadd x0 am) in D. set (dv := W.wadd x0 am) in *. clearbody dv.
    unfold ge. cbn [val]. rewrite Z.geb_leb. destruct (am <=? b0); cbn [negb]; [|reflexivity].
    rewrite div_word by assumption. destruct (G.r_div k dv) as [q|] eqn:EQ; [|reflexivity]. cbn [option_map].
    pose proof (r_div_word _ _ _ K D EQ) as Q. rewrite sub_word by assumption. destruct (G.r_sub (chk p) x1 q) as [o|] eqn:EO; [|reflexivity]. cbn [option_map].
    pose proof (r_sub_word _ _ _ _ EO) as O. rewrite sub_word by assumption. destruct (G.r_sub (chk p) x1 o) as [p1|] eqn:E1; [|reflexivity].
    cbn [option_map TS.set_Pool_t1 TS.set_Pool_t0 TS.Pool_t0 TS.Pool_t1].
    rewrite add_word by assumption. destruct (G.r_add (chk p) x0 am) as [p0|]; [|reflexivity]. cbn [option_map TS.set_Pool_t0 TS.Pool_t0 TS.Pool_t1].
    rewrite sub_word by assumption. destruct (G.r_sub (chk p) b0 am) as [c0|]; [|reflexivity]. cbn [option_map TS.set_Account_t0_balance TS.Account_t0_balance TS.Account_t1_balance].
    rewrite add_word by assumption. destruct (G.r_add (chk p) b1 o); reflexivity.
  - change (wrapping_add (@Int U32 x1) (Int am)) with (@Int U32 (W.wadd x1 am)).
    pose proof (word_u32 (x1 + am)) as D. fold (W.wadd x1 am) in D. set (dv := W.wadd x1 am) in *. clearbody dv.
    unfold ge. cbn [val]. rewrite Z.geb_leb. destruct (am <=? b1); cbn [negb]; [|reflexivity].
    rewrite div_word by assumption. destruct (G.r_div k dv) as [q|] eqn:EQ; [|reflexivity]. cbn [option_map].
    pose proof (r_div_word _ _ _ K D EQ) as Q. rewrite sub_word by assumption. destruct (G.r_sub (chk p) x0 q) as [o|] eqn:EO; [|reflexivity]. cbn [option_map].
    pose proof (r_sub_word _ _ _ _ EO) as O. rewrite sub_word by assumption. destruct (G.r_sub (chk p) x0 o) as [p1|] eqn:E1; [|reflexivity].
    cbn [option_map TS.set_Pool_t1 TS.set_Pool_t0 TS.Pool_t0 TS.Pool_t1].
    rewrite add_word by assumption. destruct (G.r_add (chk p) x1 am) as [p0|]; [|reflexivity]. cbn [option_map TS.set_Pool_t1 TS.Pool_t0 TS.Pool_t1].
    rewrite sub_word by assumption. destruct (G.r_sub (chk p) b1 am) as [c0|]; [|reflexivity]. cbn [option_map TS.set_Account_t1_balance TS.Account_t0_balance TS.Account_t1_balance].
    rewrite add_word by assumption. destruct (G.r_add (chk p) b0 o); reflexivity.
Qed.
Print Assumptions C101_swap.
Example C101_swap_case : forall b,
  TS.guest_main (Build_profile b b) (TS.mk_Input (TS.mk_Pool (Int 100) (Int 500)) (TS.mk_Trade (Int 50) true) (TS.mk_Account (Int 60) (Int 0)))
  = Some (TS.mk_Output (TS.mk_Pool (Int 150) (Int 333)) (TS.mk_Account (Int 10) (Int 167))).
Proof. intros []; vm_compute; reflexivity. Qed.

(** ** string-match *)
Lemma len_max (s : list Z) : Rust.gt (Rust.len (map (@Int U8) s)) TM.guest_MAX_LENGTH = Nat.ltb G.max_length (length s).
Proof.
  unfold Rust.gt, Rust.len, TM.guest_MAX_LENGTH, G.max_length, lit. cbn [val]. rewrite map_length, Z.gtb_ltb.
  destruct (Z.ltb_spec 20 (Z.of_nat (length s))), (Nat.ltb_spec 20 (length s)); lia || reflexivity.
Qed.
Theorem C101_string : forall p s a b,
  TM.UpperBoundedString_new p (map Int s) = option_map (fun l => TM.mk_UpperBoundedString (map Int l)) (G.bounded_new s) /\
  TM.UpperBoundedString_eq p (TM.mk_UpperBoundedString (map Int a)) (TM.mk_UpperBoundedString (map Int b)) = G.bounded_eq a b /\
  TM.guest_main p (TM.mk_Input (TM.mk_UpperBoundedString (map Int a))) =
    match G.bounded_new G.hidden with Some h => option_map TM.mk_Output (G.bounded_eq h a) | None => None end.
Proof.
  intros p s a b.
  assert (N : forall s, TM.UpperBoundedString_new p (map Int s) = option_map (fun l => TM.mk_UpperBoundedString (map Int l)) (G.bounded_new s)).
  { clear. intro s. unfold TM.UpperBoundedString_new. rewrite len_max. unfold G.bounded_new. destruct (Nat.ltb G.max_length (length s)); [reflexivity|].
    cbv zeta. lazymatch goal with |- match ?x with _ => _ end = _ => replace x with (option_map (map (@Int U8))
      (fold_left (fun acc (ib : nat * Z) => match acc with Some l => W.set_nth l (fst ib) (snd ib) | None => None end) (combine (seq 0 (length s)) s) (Some (repeat 0 G.max_length)))) end.
    - destruct (fold_left _ _ _); reflexivity.
    - rewrite <- new_loop. cbn [option_map]. unfold enumerate. rewrite map_length.
      replace (filled (@lit U8 0) TM.guest_MAX_LENGTH) with (map (@Int U8) (repeat 0 G.max_length)) by (vm_compute; reflexivity). reflexivity. }
  assert (Q : forall a b, TM.UpperBoundedString_eq p (TM.mk_UpperBoundedString (map Int a)) (TM.mk_UpperBoundedString (map Int b)) = G.bounded_eq a b).
  { clear. intros a b. unfold TM.UpperBoundedString_eq. cbn [TM.UpperBoundedString_characters]. unfold for_ret.
    change (Z.to_nat (val TM.guest_MAX_LENGTH - val (lit 0))) with 20%nat. change (val (@lit USize 0)) with (Z.of_nat 0). rewrite eq_loop. unfold G.bounded_eq, G.max_length.
    destruct (G.bounded_eq_from 20 0 a b) as [[|]|]; reflexivity. }
  split; [apply N|]. split; [apply Q|]. unfold TM.guest_main. cbn [TM.Input_input_string]. cbv zeta. unfold RustStr.str.
  change ([109; 105; 115; 115; 105; 115; 115; 105; 112; 112; 105]) with G.hidden. rewrite N. destruct (G.bounded_new G.hidden) as [h|]; [|reflexivity]. cbn [option_map].
  rewrite Q. destruct (G.bounded_eq h a); reflexivity.
Qed.
Print Assumptions C101_string.

(** ... so the guest answers whether its twenty bytes are the hidden string and nine zeros *)
Theorem C101_match : forall p a, length a = 20%nat ->
  exists r, TM.guest_main p (TM.mk_Input (TM.mk_UpperBoundedString (map Int a))) = Some (TM.mk_Output r) /\
    (r = true <-> a = [109; 105; 115; 115; 105; 115; 115; 105; 112; 112; 105; 0; 0; 0; 0; 0; 0; 0; 0; 0]).
Proof.
  intros p a L. destruct (C101_string p [] a a) as (_ & _ & ->).
  change (G.bounded_new G.hidden) with (Some [109; 105; 115; 115; 105; 115; 115; 105; 112; 112; 105; 0; 0; 0; 0; 0; 0; 0; 0; 0]).
  destruct (PropGuests.C57_eq_exact [109; 105; 115; 115; 105; 115; 115; 105; 112; 112; 105; 0; 0; 0; 0; 0; 0; 0; 0; 0] a eq_refl L) as (r & -> & R).
  exists r. split; [reflexivity|]. rewrite R. split; congruence.
Qed.
Print Assumptions C101_match.
Example C101_match_case :
  TM.guest_main (Build_profile true true) (TM.mk_Input (TM.mk_UpperBoundedString (map Int [109; 105; 115; 115; 105; 115; 115; 105; 112; 112; 105; 0; 0; 0; 0; 0; 0; 0; 0; 0]))) = Some (TM.mk_Output true) /\
  TM.guest_main (Build_profile true true) (TM.mk_Input (TM.mk_UpperBoundedString (map Int (repeat 105 20)))) = Some (TM.mk_Output false) /\
  TM.UpperBoundedString_new (Build_profile true true) (map Int (repeat 105 21)) = None.
Proof. repeat split; vm_compute; reflexivity. Qed.

(** ** template *)
Lemma coefficients_word : Forall word G.coefficients.
Proof. unfold G.coefficients, word. repeat constructor; lia. Qed.
Theorem C101_template : forall p x, word x ->
  TP.guest_main p (TP.mk_Input (Int x)) = option_map (fun e => TP.mk_Output (Int e)) (G.template (chk p) x) /\
  (chk p = false -> TP.guest_main p (TP.mk_Input (Int x)) = Some (TP.mk_Output (Int (GuestSpec.poly G.coefficients x mod 2 ^ 32)))).
Proof.
  intros p x X.
  assert (M : TP.guest_main p (TP.mk_Input (Int x)) = option_map (fun e => TP.mk_Output (Int e)) (G.template (chk p) x)).
  { unfold TP.guest_main, G.template. cbn [TP.Input_point]. cbv zeta.
    pose proof (poly_loop p x X G.coefficients 0 1 coefficients_word ltac:(unfold word; lia) ltac:(unfold word; lia)) as PL.
    lazymatch type of PL with option_map fst ?x = _ => lazymatch goal with |- match ?y with _ => _ end = _ => change y with x end; destruct x as [[e q]|] end;
    cbn [option_map fst] in PL; destruct (G.evaluate (chk p) G.coefficients x 0 1); try discriminate PL; [|reflexivity].
    cbn [option_map] in *. injection PL as ->. reflexivity. }
  split; [exact M|]. intro C. rewrite M, C, PropGuests.C58_template_exact. reflexivity.
Qed.
Print Assumptions C101_template.

(** ** guest-test1 and the test cases made for it *)
Lemma hardcoded_word : Forall word G.hardcoded.
Proof. unfold G.hardcoded, word. repeat constructor; lia. Qed.
Theorem C101_test1 : forall p a b, word a ->
  T1.guest_main p (T1.mk_Input (Int a) b) = option_map (fun o => T1.mk_Output (Int o)) (G.guest_test1 (chk p) a b) /\
  TG.gen_run p (TG.mk_Input (Int a) b) = option_map (fun o => TG.mk_Output (Int o)) (G.guest_test1 (chk p) a b) /\
  (chk p = false -> T1.guest_main p (T1.mk_Input (Int a) b) = Some (T1.mk_Output (Int ((if b then 4 * a + 100 else 100 * a) mod 2 ^ 32)))).
Proof.
  intros p a b HA.
  assert (Z0 : forall z, Some 0 = Some z -> word z) by (intros z E; injection E as <-; unfold word; lia).
  pose proof (fold_sum p a HA G.hardcoded (Some 0) hardcoded_word Z0) as FS.
  pose proof (fold_prod p a HA G.hardcoded (Some 0) hardcoded_word Z0) as FP.
  cbn [option_map] in FS, FP.
  assert (R : T1.guest_main p (T1.mk_Input (Int a) b) = option_map (fun o => T1.mk_Output (Int o)) (G.guest_test1 (chk p) a b)).
  { unfold T1.guest_main, G.guest_test1. cbn [T1.Input_in_a T1.Input_branch]. cbv zeta. destruct b.
    - lazymatch type of FS with ?x = _ => lazymatch goal with |- context [for_each ?l ?f ?s] => change (for_each l f s) with x end end. rewrite FS.
      lazymatch goal with |- context [fold_left ?f ?l ?s] => destruct (fold_left f l s) end; reflexivity.
    - lazymatch type of FP with ?x = _ => lazymatch goal with |- context [for_each ?l ?f ?s] => change (for_each l f s) with x end end. rewrite FP.
      lazymatch goal with |- context [fold_left ?f ?l ?s] => destruct (fold_left f l s) end; reflexivity. }
  split; [exact R|]. split.
  - unfold TG.gen_run, G.guest_test1. cbn [TG.Input_in_a TG.Input_branch]. cbv zeta. destruct b.
    + lazymatch type of FS with ?x = _ => lazymatch goal with |- context [for_each ?l ?f ?s] => change (for_each l f s) with x end end. rewrite FS.
      lazymatch goal with |- context [fold_left ?f ?l ?s] => destruct (fold_left f l s) end; reflexivity.
    + lazymatch type of FP with ?x = _ => lazymatch goal with |- context [for_each ?l ?f ?s] => change (for_each l f s) with x end end. rewrite FP.
      lazymatch goal with |- context [fold_left ?f ?l ?s] => destruct (fold_left f l s) end; reflexivity.
  - intro C. rewrite R, C, PropGuests.C58_test1_exact. reflexivity.
Qed.
Print Assumptions C101_test1.

(** the bytes of the two structures on the host; [pad] is in the bytes between fields *)
Definition input_bytes (pad : nat -> Z) (x : TG.Input) : list (int U8) :=
  map Int (G.encode 8 pad 0 G.test1_input_ty (G.VSeq [G.VInt (val (TG.Input_in_a x)); G.VInt (W.b2w (TG.Input_branch x))])).
Definition output_bytes (pad : nat -> Z) (x : TG.Output) : list (int U8) :=
  map Int (G.encode 8 pad 0 G.test1_output_ty (G.VSeq [G.VInt (val (TG.Output_out x))])).
(** the six test cases: 10, 20 and 30, each with and without the branch.  Under either
    profile they exist, and each is an input tape and exactly the output tape the guest
    as built makes of it *)
Theorem C101_cases : forall p pad, exists cs,
  TG.gen_test_cases (input_bytes pad) (output_bytes pad) p = Some cs /\ length cs = 6%nat /\
  map (fun c => map val (fst c)) cs =
    map (fun ab => G.encode 8 pad 0 G.test1_input_ty (G.VSeq [G.VInt (fst ab); G.VInt (snd ab)]))
      [(10, 1); (10, 0); (20, 1); (20, 0); (30, 1); (30, 0)] /\
  Forall (fun c => G.test1_guest (map val (fst c)) = Some (map val (snd c))) cs.
Proof.
  intros p pad. unfold TG.gen_test_cases. cbn [for_each]. unfold lit.
  assert (R : forall a b, word a -> TG.gen_run p (TG.mk_Input (Int a) b) = option_map (fun o => TG.mk_Output (Int o)) (G.guest_test1 (chk p) a b)) by (intros a b HA; apply C101_test1; exact HA).
  rewrite !R by (unfold word; lia).
  destruct (chk p); (eexists; split; [cbv -[input_bytes output_bytes]; reflexivity|]; split; [reflexivity|]; split; [reflexivity|]; repeat constructor; vm_compute; reflexivity).
Qed.
Print Assumptions C101_cases.

(** ** otc *)
Definition client_of (c : O.client) : TO.ClientType :=
  match c with O.RETAIL => TO.ClientType_RETAIL | O.INSTITUTIONAL => TO.ClientType_INSTITUTIONAL | O.PRIME => TO.ClientType_PRIME end.
Definition market_of (m : O.market) : TO.MarketData := TO.mk_MarketData (O.mid_price m) (O.window_volume m) (O.volatility m).
Theorem C101_otc : forall p c a m,
  TO.guest_main p (TO.mk_Input (market_of m) (TO.mk_ClientProfile (client_of c)) (TO.mk_Trade a)) =
  Some (TO.mk_Output (TO.mk_Quote (fst (O.quote c a m)) (snd (O.quote c a m)))).
Proof.
  intros p c a m.
  assert (B : TO.guest_base_spread p (client_of c) = Some (O.base_spread c)) by (destruct c; vm_compute; reflexivity).
  assert (SA : TO.guest_size_adj p (TO.mk_Trade a) (market_of m) = Some (O.size_adj a m)).
  { unfold TO.guest_size_adj, O.size_adj. cbn [TO.Trade_amount TO.MarketData_window_volume market_of]. cbv zeta.
    change fdiv with O.f_div. change fle with O.f_le. change (flit 1 100) with (O.lit 1 100). change (flit 5 100) with (O.lit 5 100).
    destruct (O.f_le _ (O.lit 1 100)); [vm_compute; reflexivity|]. destruct (O.f_le _ (O.lit 5 100)); vm_compute; reflexivity. }
  assert (V : TO.guest_volume_disc p (client_of c) a = Some (O.volume_disc c a)).
  { unfold TO.guest_volume_disc, O.volume_disc. change fgt with O.f_gt.
    replace (flit 100 10) with (O.lit 10 1) by (vm_compute; reflexivity). replace (flit 50 10) with (O.lit 5 1) by (vm_compute; reflexivity).
    destruct c; cbn [client_of]; [vm_compute; reflexivity| |]; (destruct (O.f_gt a (O.lit 10 1)); [vm_compute; reflexivity|]; destruct (O.f_gt a (O.lit 5 1)); vm_compute; reflexivity). }
  unfold TO.guest_main. cbn [TO.Input_market_data TO.Input_client TO.Input_trade TO.ClientProfile_client_type TO.Trade_amount]. cbv zeta. rewrite B, SA, V.
  unfold O.quote. cbn [market_of TO.MarketData_mid_price TO.MarketData_volatility_factor fst snd].
  replace (flit 100000 10) with (O.lit 10000 1) by (vm_compute; reflexivity). replace (flit 20 10) with (O.lit 2 1) by (vm_compute; reflexivity). reflexivity.
Qed.
Print Assumptions C101_otc.
Example C101_otc_case :
  TO.guest_main (Build_profile false false) (TO.mk_Input (market_of O.default_market) (TO.mk_ClientProfile TO.ClientType_PRIME) (TO.mk_Trade (O.lit 5 1)))
  = Some (TO.mk_Output (TO.mk_Quote (O.of_bits 0x447a2a7c) (O.of_bits 0x4479d584))).
Proof. vm_compute. reflexivity. Qed.
