(** * C102: the text of the host programs

    [TextMainPoly.v], [TextMainMatch.v], [TextMainSwap.v] and [TextMainOtc.v] are
    the `main` functions of compiler-tests/*/src/main.rs, translated by
    tools/gen_guest.py.  Each runs the guest on the encrypted and on the plain VM
    and compares; here is when it ends without a panic. *)
Require Import ZArith List Bool Lia.
From Coq Require Import Floats.SpecFloat.
From Verif Require Import Rust RustIter RustStr RustGuest RustLib RustEng RustHost TextLib TextEng TextIdeal TextGuestFacts.
Require Verif.Word Verif.Guests Verif.GuestSpec Verif.PropGuests Verif.Otc Verif.PropOtc Verif.CycleScratch
  Verif.TestVM Verif.TestRunSpec Verif.Loader Verif.LoadSpec Verif.Host Verif.HostSpec Verif.PropLoad
  Verif.PropTextMem Verif.TextTest Verif.TextHost Verif.TextHostFacts Verif.TextHostRun Verif.PropTextHost
  Verif.TextMainPoly Verif.TextMainMatch Verif.TextMainSwap Verif.TextMainOtc.
Import ListNotations.
Open Scope Z_scope.
Module P := Verif.PropTextHost.
Module HR := Verif.TextHostRun.
Module HF := Verif.TextHostFacts.
Module H := Verif.TextHost.
Module X := Verif.TextTest.
Module Ld := Verif.Loader.
Module TV := Verif.TestVM.
Module MP := Verif.TextMainPoly.
Module MM := Verif.TextMainMatch.
Module MS := Verif.TextMainSwap.
Module MO := Verif.TextMainOtc.
Module O := Verif.Otc.

(** ** the recomputations *)
Lemma poly_expected : forall p x, word x ->
  MP.prog_expected_output p (MP.mk_Input (Int x)) = option_map (fun e => MP.mk_Output (Int e)) (G.template (chk p) x).
Proof.
  intros p x HX. unfold MP.prog_expected_output, G.template. cbn [MP.Input_point]. cbv zeta.
  assert (C : Forall word G.coefficients) by (unfold G.coefficients, word; repeat constructor; lia).
  pose proof (poly_loop p x HX G.coefficients 0 1 C ltac:(unfold word; lia) ltac:(unfold word; lia)) as PL.
  lazymatch type of PL with option_map fst ?x = _ => lazymatch goal with |- match ?y with _ => _ end = _ => change y with x end; destruct x as [[e q]|] end;
  cbn [option_map fst] in PL; destruct (G.evaluate (chk p) G.coefficients x 0 1); try discriminate PL; [|reflexivity].
  cbn [option_map] in *. injection PL as ->. reflexivity.
Qed.
Lemma match_new p s : MM.UpperBoundedString_new p (map Int s) = option_map (fun l => MM.mk_UpperBoundedString (map Int l)) (G.bounded_new s).
Proof.
  unfold MM.UpperBoundedString_new.
  assert (LM : Rust.gt (Rust.len (map (@Int U8) s)) MM.prog_MAX_LENGTH = Nat.ltb G.max_length (length s)).
  { unfold Rust.gt, Rust.len, MM.prog_MAX_LENGTH, G.max_length, lit. cbn [val]. rewrite map_length, Z.gtb_ltb.
    destruct (Z.ltb_spec 20 (Z.of_nat (length s))), (Nat.ltb_spec 20 (length s)); lia || reflexivity. }
  rewrite LM. unfold G.bounded_new. destruct (Nat.ltb G.max_length (length s)); [reflexivity|].
  cbv zeta. lazymatch goal with |- match ?x with _ => _ end = _ => replace x with (option_map (map (@Int U8))
    (fold_left (fun acc (ib : nat * Z) => match acc with Some l => W.set_nth l (fst ib) (snd ib) | None => None end) (combine (seq 0 (length s)) s) (Some (repeat 0 G.max_length)))) end.
  - destruct (fold_left _ _ _); reflexivity.
  - rewrite <- new_loop. cbn [option_map]. unfold enumerate. rewrite map_length.
    replace (filled (@lit U8 0) MM.prog_MAX_LENGTH) with (map (@Int U8) (repeat 0 G.max_length)) by (vm_compute; reflexivity). reflexivity.
Qed.
Lemma match_eq p a b : MM.UpperBoundedString_eq p (MM.mk_UpperBoundedString (map Int a)) (MM.mk_UpperBoundedString (map Int b)) = G.bounded_eq a b.
Proof.
  unfold MM.UpperBoundedString_eq. cbn [MM.UpperBoundedString_characters]. unfold for_ret.
  change (Z.to_nat (val MM.prog_MAX_LENGTH - val (lit 0))) with 20%nat. change (val (@lit USize 0)) with (Z.of_nat 0). rewrite eq_loop. unfold G.bounded_eq, G.max_length.
  destruct (G.bounded_eq_from 20 0 a b) as [[|]|]; reflexivity.
Qed.
(** the host's [new] and its expectation, for every string *)
Theorem C102_match_expected : forall p s,
  (i <- MM.UpperBoundedString_new p (map Int s) ;; MM.prog_expected_output p (MM.mk_Input i)) = option_map MM.mk_Output (G.string_host s).
Proof.
  intros p s. rewrite match_new. unfold G.string_host. destruct (G.bounded_new s) as [i|]; [|reflexivity]. cbn [option_map].
  unfold MM.prog_expected_output, RustStr.str. change ([109; 105; 115; 115; 105; 115; 115; 105; 112; 112; 105]) with G.hidden. rewrite match_new.
  destruct (G.bounded_new G.hidden) as [h|]; [|reflexivity]. cbn [option_map MM.Input_input_string]. cbv zeta. rewrite match_eq. destruct (G.bounded_eq i h); reflexivity.
Qed.
Print Assumptions C102_match_expected.
Definition client_of (c : O.client) : MO.ClientType :=
  match c with O.RETAIL => MO.ClientType_RETAIL | O.INSTITUTIONAL => MO.ClientType_INSTITUTIONAL | O.PRIME => MO.ClientType_PRIME end.
Definition market_of (m : O.market) : MO.MarketData := MO.mk_MarketData (O.mid_price m) (O.window_volume m) (O.volatility m).
(** the quote library, for every input *)
Theorem C102_quote : forall p c a m,
  MO.prog_quote p (MO.mk_ClientProfile (client_of c)) (MO.mk_Trade a) (market_of m) = Some (MO.mk_Quote (fst (O.quote c a m)) (snd (O.quote c a m))) /\
  MO.MarketData_default p = Some (market_of O.default_market).
Proof.
  intros p c a m. split; [|vm_compute; reflexivity].
  assert (B : MO.prog_base_spread p (client_of c) = Some (O.base_spread c)) by (destruct c; vm_compute; reflexivity).
  assert (SA : MO.prog_size_adj p (MO.mk_Trade a) (market_of m) = Some (O.size_adj a m)).
  { unfold MO.prog_size_adj, O.size_adj. cbn [MO.Trade_amount MO.MarketData_window_volume market_of]. cbv zeta.
    change fdiv with O.f_div. change fle with O.f_le. change (flit 1 100) with (O.lit 1 100). change (flit 5 100) with (O.lit 5 100).
    destruct (O.f_le _ (O.lit 1 100)); [vm_compute; reflexivity|]. destruct (O.f_le _ (O.lit 5 100)); vm_compute; reflexivity. }
  assert (V : MO.prog_volume_disc p (client_of c) a = Some (O.volume_disc c a)).
  { unfold MO.prog_volume_disc, O.volume_disc. change fgt with O.f_gt.
    replace (flit 100 10) with (O.lit 10 1) by (vm_compute; reflexivity). replace (flit 50 10) with (O.lit 5 1) by (vm_compute; reflexivity).
    destruct c; cbn [client_of]; [vm_compute; reflexivity| |]; (destruct (O.f_gt a (O.lit 10 1)); [vm_compute; reflexivity|]; destruct (O.f_gt a (O.lit 5 1)); vm_compute; reflexivity). }
  unfold MO.prog_quote. cbn [MO.ClientProfile_client_type MO.Trade_amount]. cbv zeta. rewrite B, SA, V.
  unfold O.quote. cbn [market_of MO.MarketData_mid_price MO.MarketData_volatility_factor fst snd].
  replace (flit 100000 10) with (O.lit 10000 1) by (vm_compute; reflexivity). replace (flit 20 10) with (O.lit 2 1) by (vm_compute; reflexivity). reflexivity.
Qed.
Print Assumptions C102_quote.

Lemma swap_guest_tape pad : exists out,
  G.swap_guest (G.encode 8 pad 0 G.swap_input_ty (G.swap_input (G.mkPool 100 500) (G.mkTrade 50 true) (G.mkAccount 60 0))) = Some out /\
  G.decode 8 G.swap_output_ty out = Some (G.swap_output (G.mkPool 150 333, G.mkAccount 10 167)).
Proof.
  destruct (Verif.PropGuests.C56_tape_to_tape (G.mkPool 100 500) (G.mkTrade 50 true) (G.mkAccount 60 0) pad) as (out & G1 & _ & G2 & _).
  1-3: unfold Verif.GuestSpec.pool_ok, Verif.GuestSpec.trade_ok, Verif.GuestSpec.account_ok, Verif.GuestSpec.is_u32; cbn; lia.
  exists out. split; [exact G1|]. rewrite G2. vm_compute. reflexivity.
Qed.
(** MAX_CYCLES *)
Definition var_cycles : list Z := [77; 65; 88; 95; 67; 89; 67; 76; 69; 83].
Lemma cycles_text : forall v d, exists t,
  and_then v (fun v => Some (RustStr.parse_usize v)) = Some t /\ unwrap_or t d = Int (Verif.Host.number_of (val d) (HF.text_of v)).
Proof.
  intros [s|] d; [|exists None; split; [reflexivity|destruct d; reflexivity]]. eexists. split; [reflexivity|]. cbn. rewrite HF.parse_text.
  destruct (Verif.Host.parse_usize (map val s)); [reflexivity|destruct d; reflexivity].
Qed.

(** ** the programs *)
Section Main.
Context {GL KL SL Src : Type}.
Variables (log : nat) (sp : space GL KL SL) (garbage : Z -> nat -> list Z) (garbage_i64 : Z -> nat -> int I64)
  (gl_n : GL -> Z) (enc dec : Z -> list Z -> list Z) (next : Src -> Src)
  (sw : word_space GL KL SL) (shuffle : list (nat * list Z) -> list (nat * list Z)).
Notation L := (lib (TextIdeal.G.Ideal log) sp garbage garbage_i64 gl_n enc dec next).
Notation N := (eng (TextIdeal.G.Ideal log) sp garbage garbage_i64 gl_n enc dec next sw (ideal_bdd log) TextIdeal.G.decrypt_word Bdd.pack_bits shuffle).
Variables (p : profile) (l : GL) (sl : SL) (kl : KL) (fuel : nat) (pm : layouts GL SL) (Hs : host L N).
Notation y := (cycle_costs_at sp sw l sl kl).
Notation debug := (HR.debug log sp garbage garbage_i64 gl_n enc dec next sw shuffle Hs).
Notation threads := (HR.threads log sp garbage garbage_i64 gl_n enc dec next sw shuffle Hs).
Notation work := (HR.work log sp garbage garbage_i64 gl_n enc dec next sw shuffle Hs).
Notation run := (P.text_main log sp garbage garbage_i64 gl_n enc dec next sw shuffle p fuel Hs).

(** the number of cycles: MAX_CYCLES if that is a number, else the program's default *)
Definition cycles (d : Z) : Z := Verif.Host.number_of d (HF.text_of (env_var Hs (str var_cycles))).

Ltac settings d :=
  let t := fresh "t" in let E1 := fresh in let E2 := fresh in
  destruct (cycles_text (env_var Hs (str var_cycles)) (lit d)) as (t & E1 & E2);
  change (str [77; 65; 88; 95; 67; 89; 67; 76; 69; 83]) with (str var_cycles);
  rewrite E1; cbv iota beta zeta; rewrite E2; change (val (@lit USize d)) with d; fold (cycles d).

(** each program is the run of C100 and its own comparison *)
Lemma poly_main (enc_in : MP.Input -> list (int U8)) (dec_out : list (int U8) -> option MP.Output) bytes :
  MP.prog_main L N Hs enc_in dec_out p fuel bytes =
  (out <- run bytes (enc_in (MP.mk_Input (Int 123))) (Int (cycles 700)) ;;
   have <- dec_out out ;;
   want <- MP.prog_expected_output p (MP.mk_Input (Int 123)) ;;
   if Rust.eq (MP.Output_evaluation have) (MP.Output_evaluation want) then Some tt else None).
Proof.
  unfold MP.prog_main, P.text_main. destruct (H.Phantom_from_elf L N Hs p bytes) as [pz|]; [|reflexivity]. cbv zeta. settings 700. unfold lit.
  destruct (H.Phantom_encrypted_vm L N Hs p pz _ _) as [ev|]; [|reflexivity]. destruct (H.EncryptedVM_execute L N Hs p fuel ev) as [ev1|]; [|reflexivity].
  destruct (H.EncryptedVM_output_tape L N Hs p ev1) as [[ev2 tape]|]; [|reflexivity].
  destruct (H.Phantom_test_vm p pz _) as [vm|]; [|reflexivity]. destruct (X.TestVM_read_input_tape p vm _) as [vm1|]; [|reflexivity].
  destruct (X.TestVM_execute p fuel vm1) as [vm2|]; [|reflexivity]. destruct (X.TestVM_output_tape p vm2) as [out|]; [|reflexivity].
  destruct (eq_list out tape); reflexivity.
Qed.
Lemma match_main (enc_in : MM.Input -> list (int U8)) (dec_out : list (int U8) -> option MM.Output) bytes :
  MM.prog_main L N Hs enc_in dec_out p fuel bytes =
  (i <- MM.UpperBoundedString_new p (map Int [110; 111; 116; 45; 109; 105; 115; 115; 105; 115; 115; 105; 112; 112; 105]) ;;
   out <- run bytes (enc_in (MM.mk_Input i)) (Int (cycles 100)) ;;
   have <- dec_out out ;;
   want <- MM.prog_expected_output p (MM.mk_Input i) ;;
   if Bool.eqb (MM.Output_is_match have) (MM.Output_is_match want) then Some tt else None).
Proof.
  unfold MM.prog_main, P.text_main. unfold RustStr.str at 2. destruct (MM.UpperBoundedString_new p _) as [i|].
  2: { destruct (H.Phantom_from_elf L N Hs p bytes) as [pz|]; [|reflexivity]. destruct (and_then _ _); reflexivity. }
  destruct (H.Phantom_from_elf L N Hs p bytes) as [pz|]; [|reflexivity]. cbv zeta. settings 100.
  destruct (H.Phantom_encrypted_vm L N Hs p pz _ _) as [ev|]; [|reflexivity]. destruct (H.EncryptedVM_execute L N Hs p fuel ev) as [ev1|]; [|reflexivity].
  destruct (H.EncryptedVM_output_tape L N Hs p ev1) as [[ev2 tape]|]; [|reflexivity].
  destruct (H.Phantom_test_vm p pz _) as [vm|]; [|reflexivity]. destruct (X.TestVM_read_input_tape p vm _) as [vm1|]; [|reflexivity].
  destruct (X.TestVM_execute p fuel vm1) as [vm2|]; [|reflexivity]. destruct (X.TestVM_output_tape p vm2) as [out|]; [|reflexivity].
  destruct (eq_list out tape); reflexivity.
Qed.
Definition swap_in : MS.Input := MS.mk_Input (MS.mk_Pool (Int 100) (Int 500)) (MS.mk_Trade (Int 50) true) (MS.mk_Account (Int 60) (Int 0)).
Definition swap_same (a b : MS.Output) : bool :=
  (Rust.eq (MS.Account_t0_balance (MS.Output_account a)) (MS.Account_t0_balance (MS.Output_account b)) &&
   Rust.eq (MS.Account_t1_balance (MS.Output_account a)) (MS.Account_t1_balance (MS.Output_account b))) &&
  (Rust.eq (MS.Pool_t0 (MS.Output_pool a)) (MS.Pool_t0 (MS.Output_pool b)) && Rust.eq (MS.Pool_t1 (MS.Output_pool a)) (MS.Pool_t1 (MS.Output_pool b))).
Lemma swap_main (enc_in : MS.Input -> list (int U8)) (dec_out : list (int U8) -> option MS.Output) bytes :
  MS.prog_main L N Hs enc_in dec_out p fuel bytes =
  (out <- run bytes (enc_in swap_in) (Int (cycles 300)) ;;
   have <- dec_out out ;;
   want <- option_map (fun o => MS.mk_Output (MS.mk_Pool (Int (G.t0 (fst o))) (Int (G.t1 (fst o)))) (MS.mk_Account (Int (G.t0_balance (snd o))) (Int (G.t1_balance (snd o)))))
     (G.swap false (chk p) (G.mkPool 100 500) (G.mkTrade 50 true) (G.mkAccount 60 0)) ;;
   if swap_same have want then Some tt else None).
Proof.
  unfold MS.prog_main, P.text_main. destruct (H.Phantom_from_elf L N Hs p bytes) as [pz|]; [|reflexivity]. cbv zeta. settings 300. unfold lit. fold swap_in.
  destruct (H.Phantom_encrypted_vm L N Hs p pz _ _) as [ev|]; [|reflexivity]. destruct (H.EncryptedVM_execute L N Hs p fuel ev) as [ev1|]; [|reflexivity].
  destruct (H.EncryptedVM_output_tape L N Hs p ev1) as [[ev2 tape]|].
  2: { destruct (H.Phantom_test_vm p pz _) as [vm|]; [|reflexivity]. destruct (X.TestVM_read_input_tape p vm _) as [vm1|]; [|reflexivity].
    destruct (X.TestVM_execute p fuel vm1) as [vm2|]; [|reflexivity]. destruct (X.TestVM_output_tape p vm2); reflexivity. }
  destruct (H.Phantom_test_vm p pz _) as [vm|]; [|reflexivity]. destruct (X.TestVM_read_input_tape p vm _) as [vm1|]; [|reflexivity].
  destruct (X.TestVM_execute p fuel vm1) as [vm2|]; [|reflexivity]. destruct (X.TestVM_output_tape p vm2) as [out|]; [|reflexivity].
  destruct (eq_list out tape); [|reflexivity].
  lazymatch goal with |- match ?x with _ => _ end = _ => replace x with (Some (MS.mk_Pool (Int 150) (Int 333), MS.mk_Account (Int 10) (Int 167))) end.
  2: { destruct p as [[|] dbg]; vm_compute; reflexivity. }
  replace (G.swap false (chk p) (G.mkPool 100 500) (G.mkTrade 50 true) (G.mkAccount 60 0)) with (Some (G.mkPool 150 333, G.mkAccount 10 167)).
  2: { destruct (chk p); vm_compute; reflexivity. }
  cbn [option_map fst snd G.t0 G.t1 G.t0_balance G.t1_balance]. destruct (dec_out out) as [have|]; [|reflexivity]. unfold swap_same.
  cbn [MS.Output_account MS.Output_pool MS.Account_t0_balance MS.Account_t1_balance MS.Pool_t0 MS.Pool_t1].
  destruct (_ && _); [|reflexivity]. cbn [andb]. destruct (_ && _); reflexivity.
Qed.
Lemma otc_main (enc_in : MO.Input -> list (int U8)) (dec_out : list (int U8) -> option MO.Output) bytes :
  MO.main_main L N Hs enc_in dec_out p fuel bytes =
  (out <- run bytes (enc_in (MO.mk_Input (market_of O.default_market) (MO.mk_ClientProfile (client_of O.PRIME)) (MO.mk_Trade (O.lit 5 1)))) (Int (cycles 9000)) ;;
   have <- dec_out out ;; Some tt).
Proof.
  unfold MO.main_main, P.text_main. destruct (H.Phantom_from_elf L N Hs p bytes) as [pz|]; [|reflexivity].
  unfold MO.ClientProfile_new, MO.Trade_new. rewrite (proj2 (C102_quote p O.PRIME (O.lit 5 1) O.default_market)).
  replace (flit 50 10) with (O.lit 5 1) by (vm_compute; reflexivity). cbv zeta. settings 9000.
  change MO.ClientType_PRIME with (client_of O.PRIME).
  destruct (H.Phantom_encrypted_vm L N Hs p pz _ _) as [ev|]; [|reflexivity]. destruct (H.EncryptedVM_execute L N Hs p fuel ev) as [ev1|]; [|reflexivity].
  destruct (H.EncryptedVM_output_tape L N Hs p ev1) as [[ev2 tape]|].
  2: { destruct (H.Phantom_test_vm p pz _) as [vm|]; [|reflexivity]. destruct (X.TestVM_read_input_tape p vm _) as [vm1|]; [|reflexivity].
    destruct (X.TestVM_execute p fuel vm1) as [vm2|]; [|reflexivity]. destruct (X.TestVM_output_tape p vm2) as [out|]; [|reflexivity]. destruct (dec_out out); reflexivity. }
  destruct (H.Phantom_test_vm p pz _) as [vm|]; [|reflexivity]. destruct (X.TestVM_read_input_tape p vm _) as [vm1|]; [|reflexivity].
  destruct (X.TestVM_execute p fuel vm1) as [vm2|]; [|reflexivity]. destruct (X.TestVM_output_tape p vm2) as [out|]; [|reflexivity].
  destruct (dec_out out) as [have|] eqn:D; [|destruct (eq_list out tape); [rewrite D|]; reflexivity].
  destruct (eq_list out tape); [rewrite D|reflexivity]. cbn [MO.Input_client MO.Input_trade MO.Input_market_data]. rewrite (proj1 (C102_quote p _ _ _)). reflexivity.
Qed.

(** what C100 asks of the image, of the tape and of the machine *)
Definition image_ok (bytes tape : list Z) (n : nat) (x : ElfBytes Hs) (hs : list ProgramHeader) (ph : Ld.phantom) : Prop :=
  ElfBytes_minimal_parse Hs (map Int bytes) = Some x /\ ElfBytes_segments Hs x = Some hs /\
  Verif.LoadSpec.elf_ok (HF.elf_of Hs x hs bytes) /\ Ld.from_elf (chk p) (HF.elf_of Hs x hs bytes) = Some ph /\
  0 < Z.of_nat (length (Ld.b_data (Ld.boot_rom ph))) /\ Ld.b_offset (Ld.boot_ram ph) + 4096 <= 2 ^ 32 /\
  Z.of_nat n < 2 ^ 32 /\
  P.machine_ok log sp garbage garbage_i64 gl_n enc dec next sw shuffle p l sl kl fuel pm Hs (Z.of_nat (length (Ld.b_data (Ld.boot_rom ph)))) n.
(** the outcome stated in C100: the output tape on which both machines agree *)
Definition result (ph : Ld.phantom) (tape : list Z) (n : nat) : option (list Z) :=
  let rom := Ld.b_data (Ld.boot_rom ph) in
  match Verif.CycleScratch.cycles_space y (Z.of_nat log) (Z.log2_up (Z.of_nat (length rom) / 4)) 5 10 true debug threads work n with
  | Some _ => Verif.HostSpec.host_spec (chk p) debug threads n (Ld.b_offset (Ld.boot_ram ph)) rom (Ld.b_data (Ld.boot_ram ph))
        (TV.start_addr (Ld.inp_info ph), TV.io_size (Ld.inp_info ph)) (TV.start_addr (Ld.out_info ph), TV.io_size (Ld.out_info ph)) tape
  | None => None
  end.
Lemma run_result bytes tape d x hs ph : 0 <= d -> Forall TestRunSpec.is_byte tape -> Z.of_nat (length tape) < 2 ^ 63 ->
  image_ok bytes tape (Z.to_nat (cycles d)) x hs ph ->
  run (map Int bytes) (map Int tape) (Int (cycles d)) = option_map (map Int) (result ph tape (Z.to_nat (cycles d))).
Proof.
  intros HD FB LT (E1 & E2 & E3 & E4 & E5 & E6 & E7 & E8).
  assert (C0 : 0 <= cycles d) by (apply PropHost.number_pos; exact HD).
  pose proof (P.C100_main log sp garbage garbage_i64 gl_n enc dec next sw shuffle p l sl kl fuel pm Hs bytes x hs ph tape (Z.to_nat (cycles d)) E1 E2 E3 E4 E5 E6 FB LT E7 E8) as M.
  rewrite Z2Nat.id in M by exact C0. rewrite M. unfold result. cbv zeta.
  destruct (Verif.CycleScratch.cycles_space y _ _ 5 10 true _ _ _ _); reflexivity.
Qed.
Ltac vals := rewrite map_map, (map_ext (fun z => val (Int z)) (fun z => z)), map_id by reflexivity.

(** *** the polynomial *)
Definition poly_in (pad : nat -> Z) (i : MP.Input) : list (int U8) :=
  map Int (G.encode 8 pad 0 G.template_input_ty (G.VSeq [G.VInt (val (MP.Input_point i))])).
Definition poly_out (b : list (int U8)) : option MP.Output :=
  match G.decode 8 G.template_output_ty (map val b) with Some (G.VSeq [G.VInt e]) => Some (MP.mk_Output (Int e)) | _ => None end.
Definition poly_tape (pad : nat -> Z) : list Z := G.encode 8 pad 0 G.template_input_ty (G.VSeq [G.VInt 123]).
(** The program ends normally exactly when it is compiled without overflow
    checks and the two machines agree on an output tape that holds the
    polynomial's value at 123 modulo 2^32. *)
Theorem C102_template : forall pad bytes x hs ph,
  let n := Z.to_nat (cycles 700) in
  image_ok bytes (poly_tape pad) n x hs ph ->
  MP.prog_main L N Hs (poly_in pad) poly_out p fuel (map Int bytes) = Some tt <->
  chk p = false /\ exists out, result ph (poly_tape pad) n = Some out /\
    G.decode 8 G.template_output_ty out = Some (G.VSeq [G.VInt (Verif.GuestSpec.poly G.coefficients 123 mod 2 ^ 32)]).
Proof.
  intros pad bytes x hs ph n OK. rewrite poly_main, poly_expected by (unfold word; lia).
  change (poly_in pad (MP.mk_Input (Int 123))) with (map (@Int U8) (poly_tape pad)).
  rewrite (run_result bytes (poly_tape pad) 700 x hs ph) by (try exact OK; try (vm_compute; congruence); unfold poly_tape; cbn; unfold TestRunSpec.is_byte; repeat constructor; lia).
  fold n. destruct (result ph (poly_tape pad) n) as [out|]; cbn [option_map].
  2: { split; [discriminate|]. intros (_ & o & E & _). discriminate E. }
  unfold poly_out. vals.
  assert (T : G.template (chk p) 123 = if chk p then None else Some (Verif.GuestSpec.poly G.coefficients 123 mod 2 ^ 32)) by (destruct (chk p); vm_compute; reflexivity).
  rewrite T. clear T. split.
  - destruct (G.decode 8 G.template_output_ty out) as [v|] eqn:D; [|discriminate]. destruct v as [|[|[e|] [|]]]; try discriminate.
    destruct (chk p); [discriminate|]. cbn [option_map MP.Output_evaluation]. unfold Rust.eq. cbn [val].
    destruct (Z.eqb_spec e (Verif.GuestSpec.poly G.coefficients 123 mod 2 ^ 32)) as [->|]; [|discriminate]. intros _. split; [reflexivity|]. exists out. auto.
  - intros (-> & o & E & D). injection E as <-. rewrite D. cbn [option_map MP.Output_evaluation]. unfold Rust.eq. cbn [val]. rewrite Z.eqb_refl. reflexivity.
Qed.
(** An image that does what its source says (C58) passes, without overflow checks only. *)
Theorem C102_template_passes : forall pad bytes x hs ph,
  let n := Z.to_nat (cycles 700) in
  image_ok bytes (poly_tape pad) n x hs ph -> result ph (poly_tape pad) n = G.template_guest (poly_tape pad) ->
  MP.prog_main L N Hs (poly_in pad) poly_out p fuel (map Int bytes) = if chk p then None else Some tt.
Proof.
  intros pad bytes x hs ph n OK R. pose proof (C102_template pad bytes x hs ph OK) as T. fold n in T. rewrite R in T.
  destruct (proj1 (Verif.PropGuests.C58_tape_to_tape 123 true pad ltac:(unfold Verif.GuestSpec.is_u32; lia))) as (out & G1 & G2).
  destruct (chk p).
  - destruct (MP.prog_main _ _ _ _ _ _ _ _) as [[]|]; [|reflexivity]. destruct (proj1 T eq_refl) as (E & _). discriminate E.
  - apply T. split; [reflexivity|]. exists out. split; [exact G1|exact G2].
Qed.

(** *** the string *)
Definition match_in (pad : nat -> Z) (i : MM.Input) : list (int U8) :=
  map Int (G.encode 8 pad 0 G.string_input_ty (G.string_input (map val (MM.UpperBoundedString_characters (MM.Input_input_string i))))).
Definition match_out (b : list (int U8)) : option MM.Output :=
  match G.decode 8 G.string_output_ty (map val b) with Some (G.VSeq [G.VInt e]) => Some (MM.mk_Output (e =? 1)) | _ => None end.
(** "not-mississippi" and five zeros *)
Definition match_chars : list Z := [110; 111; 116; 45; 109; 105; 115; 115; 105; 115; 115; 105; 112; 112; 105; 0; 0; 0; 0; 0].
Definition match_tape (pad : nat -> Z) : list Z := G.encode 8 pad 0 G.string_input_ty (G.string_input match_chars).
Lemma decode_bool out v : G.decode 8 G.string_output_ty out = Some v -> v = G.VSeq [G.VInt 0] \/ v = G.VSeq [G.VInt 1].
Proof.
  unfold G.string_output_ty. cbn. destruct out as [|b out]; cbn; [discriminate|].
  destruct (Z.eqb_spec b 0) as [->|]; cbn; [injection 1 as <-; auto|]. destruct (Z.eqb_spec b 1) as [->|]; cbn; [injection 1 as <-; auto|discriminate].
Qed.
(** The program ends normally exactly when the two machines agree on an output
    tape that says "no match". *)
Theorem C102_match : forall pad bytes x hs ph,
  let n := Z.to_nat (cycles 100) in
  image_ok bytes (match_tape pad) n x hs ph ->
  MM.prog_main L N Hs (match_in pad) match_out p fuel (map Int bytes) = Some tt <->
  exists out, result ph (match_tape pad) n = Some out /\ G.decode 8 G.string_output_ty out = Some (G.VSeq [G.VInt 0]).
Proof.
  intros pad bytes x hs ph n OK. rewrite match_main, match_new.
  replace (G.bounded_new _) with (Some match_chars) by (vm_compute; reflexivity). cbn [option_map].
  replace (match_in pad _) with (map (@Int U8) (match_tape pad)) by reflexivity.
  rewrite (run_result bytes (match_tape pad) 100 x hs ph) by (try exact OK; try (vm_compute; congruence); unfold match_tape; cbn; unfold TestRunSpec.is_byte; repeat constructor; lia).
  fold n. destruct (result ph (match_tape pad) n) as [out|]; cbn [option_map].
  2: { split; [discriminate|]. intros (o & E & _). discriminate E. }
  unfold match_out. vals. replace (MM.prog_expected_output p _) with (Some (MM.mk_Output false)) by (destruct p as [[|] [|]]; vm_compute; reflexivity).
  split.
  - destruct (G.decode 8 G.string_output_ty out) as [v|] eqn:D; [|discriminate]. destruct (decode_bool out v D) as [->| ->]; [|discriminate]. intros _. exists out. auto.
  - intros (o & E & D). injection E as <-. rewrite D. reflexivity.
Qed.
Theorem C102_match_passes : forall pad bytes x hs ph,
  let n := Z.to_nat (cycles 100) in
  image_ok bytes (match_tape pad) n x hs ph -> result ph (match_tape pad) n = G.string_guest (match_tape pad) ->
  MM.prog_main L N Hs (match_in pad) match_out p fuel (map Int bytes) = Some tt.
Proof.
  intros pad bytes x hs ph n OK R. apply (C102_match pad bytes x hs ph OK). exists [0]. fold n. rewrite R. split; vm_compute; reflexivity.
Qed.

(** *** the swap *)
Definition swap_value (i : MS.Input) : G.value :=
  G.swap_input (G.mkPool (val (MS.Pool_t0 (MS.Input_pool i))) (val (MS.Pool_t1 (MS.Input_pool i))))
    (G.mkTrade (val (MS.Trade_amount (MS.Input_trade i))) (MS.Trade_direction (MS.Input_trade i)))
    (G.mkAccount (val (MS.Account_t0_balance (MS.Input_account i))) (val (MS.Account_t1_balance (MS.Input_account i)))).
Definition swap_enc (pad : nat -> Z) (i : MS.Input) : list (int U8) := map Int (G.encode 8 pad 0 G.swap_input_ty (swap_value i)).
Definition swap_dec (b : list (int U8)) : option MS.Output :=
  match G.decode 8 G.swap_output_ty (map val b) with
  | Some (G.VSeq [G.VSeq [G.VInt a; G.VInt b]; G.VSeq [G.VInt c; G.VInt d]]) => Some (MS.mk_Output (MS.mk_Pool (Int a) (Int b)) (MS.mk_Account (Int c) (Int d)))
  | _ => None
  end.
Definition swap_tape (pad : nat -> Z) : list Z :=
  G.encode 8 pad 0 G.swap_input_ty (G.swap_input (G.mkPool 100 500) (G.mkTrade 50 true) (G.mkAccount 60 0)).
(** The program ends normally exactly when the two machines agree on an output
    tape that holds the pool (150, 333) and the account (10, 167). *)
Theorem C102_swap : forall pad bytes x hs ph,
  (forall i, TestRunSpec.is_byte (pad i)) ->
  let n := Z.to_nat (cycles 300) in
  image_ok bytes (swap_tape pad) n x hs ph ->
  MS.prog_main L N Hs (swap_enc pad) swap_dec p fuel (map Int bytes) = Some tt <->
  exists out, result ph (swap_tape pad) n = Some out /\
    G.decode 8 G.swap_output_ty out = Some (G.swap_output (G.mkPool 150 333, G.mkAccount 10 167)).
Proof.
  intros pad bytes x hs ph PB n OK. rewrite swap_main.
  change (swap_enc pad swap_in) with (map (@Int U8) (swap_tape pad)).
  rewrite (run_result bytes (swap_tape pad) 300 x hs ph) by (try exact OK; try (vm_compute; congruence); unfold swap_tape; cbn; repeat constructor; try apply PB; lia).
  fold n. destruct (result ph (swap_tape pad) n) as [out|]; cbn [option_map].
  2: { split; [discriminate|]. intros (o & E & _). discriminate E. }
  unfold swap_dec. vals. replace (G.swap false (chk p) _ _ _) with (Some (G.mkPool 150 333, G.mkAccount 10 167)) by (destruct (chk p); vm_compute; reflexivity).
  cbn [option_map fst snd G.t0 G.t1 G.t0_balance G.t1_balance]. split.
  - destruct (G.decode 8 G.swap_output_ty out) as [v|] eqn:D; [|discriminate].
    destruct v as [|[|[|[|[a|] [|[b|] [|]]]] [|[|[|[c|] [|[d|] [|]]]] [|]]]]; try discriminate.
    unfold swap_same, Rust.eq. cbn [MS.Output_account MS.Output_pool MS.Account_t0_balance MS.Account_t1_balance MS.Pool_t0 MS.Pool_t1 val].
    destruct (Z.eqb_spec a 150) as [->|]; [|rewrite ?andb_false_r; discriminate].
    destruct (Z.eqb_spec b 333) as [->|]; [|rewrite ?andb_false_r; discriminate].
    destruct (Z.eqb_spec c 10) as [->|]; [|rewrite ?andb_false_r; discriminate].
    destruct (Z.eqb_spec d 167) as [->|]; [|rewrite ?andb_false_r; discriminate].
    intros _. exists out. auto.
  - intros (o & E & D). injection E as <-. rewrite D. reflexivity.
Qed.
Theorem C102_swap_passes : forall pad bytes x hs ph,
  (forall i, TestRunSpec.is_byte (pad i)) ->
  let n := Z.to_nat (cycles 300) in
  image_ok bytes (swap_tape pad) n x hs ph -> result ph (swap_tape pad) n = G.swap_guest (swap_tape pad) ->
  MS.prog_main L N Hs (swap_enc pad) swap_dec p fuel (map Int bytes) = Some tt.
Proof.
  intros pad bytes x hs ph PB n OK R. apply (C102_swap pad bytes x hs ph PB OK). fold n. rewrite R.
  exact (swap_guest_tape pad).
Qed.

(** *** the quote *)
Definition client_from (c : MO.ClientType) : O.client :=
  match c with MO.ClientType_RETAIL => O.RETAIL | MO.ClientType_INSTITUTIONAL => O.INSTITUTIONAL | MO.ClientType_PRIME => O.PRIME end.
Definition otc_enc (nan : Z) (pad : nat -> Z) (i : MO.Input) : list (int U8) :=
  map Int (G.encode 8 pad 0 O.otc_input_ty (O.otc_input nan (client_from (MO.ClientProfile_client_type (MO.Input_client i))) (MO.Trade_amount (MO.Input_trade i))
    (O.mkMarket (MO.MarketData_mid_price (MO.Input_market_data i)) (MO.MarketData_window_volume (MO.Input_market_data i)) (MO.MarketData_volatility_factor (MO.Input_market_data i))))).
Definition otc_dec (b : list (int U8)) : option MO.Output :=
  option_map (fun q => MO.mk_Output (MO.mk_Quote (fst q) (snd q))) (O.otc_read (map val b)).
Definition otc_tape (nan : Z) (pad : nat -> Z) : list Z := G.encode 8 pad 0 O.otc_input_ty (O.otc_input nan O.PRIME (O.lit 5 1) O.default_market).
(** The program ends normally exactly when the two machines agree on an output
    tape of eight bytes at least: whatever quote it holds, it is printed and not
    compared with the quote computed by the host. *)
Theorem C102_otc : forall nan pad bytes x hs ph,
  let n := Z.to_nat (cycles 9000) in
  image_ok bytes (otc_tape nan pad) n x hs ph ->
  MO.main_main L N Hs (otc_enc nan pad) otc_dec p fuel (map Int bytes) = Some tt <->
  exists out, result ph (otc_tape nan pad) n = Some out /\ (8 <= length out)%nat.
Proof.
  intros nan pad bytes x hs ph n OK. rewrite otc_main.
  replace (otc_enc nan pad _) with (map (@Int U8) (otc_tape nan pad)) by reflexivity.
  assert (T : otc_tape nan pad = otc_tape 0 (fun _ => 0)) by (vm_compute; reflexivity).
  assert (FB : Forall TestRunSpec.is_byte (otc_tape nan pad)).
  { rewrite T. vm_compute. repeat constructor; congruence. }
  rewrite (run_result bytes (otc_tape nan pad) 9000 x hs ph) by (try exact OK; try exact FB; try lia; rewrite T; vm_compute; congruence).
  fold n. destruct (result ph (otc_tape nan pad) n) as [out|]; cbn [option_map].
  2: { split; [discriminate|]. intros (o & E & _). discriminate E. }
  unfold otc_dec. vals. split.
  - intro E. exists out. split; [reflexivity|]. destruct (Nat.le_gt_cases 8 (length out)) as [|SH]; [assumption|]. exfalso.
    do 8 (destruct out as [|? out]; [discriminate E|]). cbn in SH. lia.
  - intros (o & E & LE). injection E as <-. do 8 (destruct out as [|? out]; [cbn in LE; lia|]). reflexivity.
Qed.
End Main.
(* each of the first three uses the theorem before it *)
Print Assumptions C102_template_passes.
Print Assumptions C102_match_passes.
Print Assumptions C102_swap_passes.
Print Assumptions C102_otc.

(** ** an image whose program writes 0x7F484672, the polynomial's value at 123 *)
Definition ex_prog : list Z := Verif.RunSpec.asm [Isa.LUI 1 0x40; Isa.LUI 2 0x7F484; Isa.OPI Isa.ADDI 2 2 1650; Isa.STORE Isa.SW 1 2 4; Isa.JAL 0 0] ++ [0xC0001073].
Definition ex_e : Ld.elf := PropLoad.elf_with ex_prog 0 8.
Notation ex_L := (lib (TextIdeal.G.Ideal 2) Verif.PropTextMem.ex_sp (fun _ _ => repeat 7 4) (fun _ _ => Int 7) (fun _ => 4) (fun _ x => x) (fun _ x => x) (fun s : nat => Datatypes.S s)).
Notation ex_N := (eng (TextIdeal.G.Ideal 2) Verif.PropTextMem.ex_sp (fun _ _ => repeat 7 4) (fun _ _ => Int 7) (fun _ => 4) (fun _ x => x) (fun _ x => x) (fun s : nat => Datatypes.S s)
  P.PE.ex_sw (ideal_bdd 2) TextIdeal.G.decrypt_word Bdd.pack_bits (@rev _)).
(** two threads, ten cycles *)
Definition ex_host : host ex_L ex_N :=
  {| ElfBytes := unit; ScratchOwned := Z; GLWESecret := unit; LWESecret := unit; VMKeys := unit; Degree := unit; Rank := unit;
     ElfBytes_minimal_parse := fun _ => Some tt;
     ElfBytes_segments := fun _ => Some (map P.hdr (Ld.e_phdrs ex_e));
     ElfBytes_section_header_by_name := fun _ s => Some (P.sec (if RustIter.eq_list s (str [46; 105; 110; 112; 100; 97; 116; 97] (* .inpdata *)) then Ld.e_inpdata ex_e else Ld.e_outdata ex_e));
     env_var := fun s => if RustIter.eq_list s (str HR.var_threads) then Some (map Int [50])
                         else if RustIter.eq_list s (str var_cycles) then Some (map Int [49; 48]) else None;
     num_cpus_get_physical := Int 8;
     CryptographicParameters_new := (P.PE.ex_pm : RustEng.CryptographicParameters ex_N);
     CryptographicParameters_n_glwe := fun _ => tt; CryptographicParameters_rank := fun _ => tt; CryptographicParameters_n_lwe := fun _ => tt;
     CryptographicParameters_lwe_block_size := fun _ => Int 7;
     Source_new := fun _ => 0%nat;
     ScratchOwned_alloc := fun n => Some (val n); ScratchOwned_borrow := fun n => n;
     GLWESecret_alloc := fun _ _ => tt; GLWESecret_fill_ternary_prob := fun _ _ x => Some (tt, x);
     LWESecret_alloc := fun _ => tt; LWESecret_fill_binary_block := fun _ _ x => Some (tt, x);
     Secret_alloc := fun _ _ => tt; Secret_prepare := fun _ _ _ => Some tt;
     VMKeys_encrypt_sk := fun _ _ _ a b => Some (a, b, tt);
     Keys_alloc := fun _ => 0%nat; Keys_prepare := fun _ _ _ _ => Some 0%nat |}.
(** the same image: the polynomial's program passes without overflow checks and panics with them *)
Example C102_case : forall chk,
  MP.prog_main ex_L ex_N ex_host (poly_in (fun _ => 7)) poly_out (Build_profile chk true) 20 (map Int (Ld.e_bytes ex_e)) = if chk then None else Some tt.
Proof.
  intro c.
  assert (C : cycles 2 Verif.PropTextMem.ex_sp (fun _ _ => repeat 7 4) (fun _ _ => Int 7) (fun _ => 4) (fun _ x => x) (fun _ x => x) (fun s : nat => Datatypes.S s) P.PE.ex_sw (@rev _) ex_host 700 = 10) by (vm_compute; reflexivity).
  apply (C102_template_passes 2 Verif.PropTextMem.ex_sp (fun _ _ => repeat 7 4) (fun _ _ => Int 7) (fun _ => 4) (fun _ x => x) (fun _ x => x) (fun s : nat => Datatypes.S s) P.PE.ex_sw (@rev _)
    (Build_profile c true) 0%nat 0%nat 0%nat 20 P.PE.ex_pm ex_host (fun _ => 7) (Ld.e_bytes ex_e) tt (map P.hdr (Ld.e_phdrs ex_e)) (PropLoad.ph_of ex_e)); rewrite C.
  - split; [reflexivity|]. split; [reflexivity|].
    split; [change (Verif.LoadSpec.elf_ok ex_e); apply PropLoad.elf_with_ok; unfold Verif.LoadSpec.is_u32; lia|].
    split; [change (Ld.from_elf c ex_e = Some (PropLoad.ph_of ex_e)); destruct c; vm_compute; reflexivity|].
    split; [vm_compute; reflexivity|]. split; [vm_compute; discriminate|]. split; [vm_compute; reflexivity|].
    split; [lia|]. split; [lia|]. split; [lia|]. split; [intro l; apply Permutation.Permutation_rev|].
    split; [repeat split; vm_compute; congruence|].
    split; [eexists; split; reflexivity|].
    split; [repeat split; intros; try discriminate; reflexivity|].
    split; [reflexivity|]. split; [cbn; lia|]. split; [right; vm_compute; reflexivity|]. intros _.
    split; [eexists; split; reflexivity|].
    repeat split; vm_compute; congruence.
  - destruct c; vm_compute; reflexivity.
Qed.
