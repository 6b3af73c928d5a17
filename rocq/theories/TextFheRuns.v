(** * The translated homomorphic tests of the interpreter that run cycles (helper lemmas) *)
Require Import ZArith List Bool Lia.
From Verif Require Import Rust RustIter RustStr RustLib RustEng RustHost RustTests TextLib TextEng TextEngFacts TextMemFacts TextPrep TextMemClient PropTextMem TextPlanes TextShadow TextCycle TextClient TextIdeal.
Require Verif.Word Verif.Isa Verif.Codec Verif.Glwe Verif.EncMem Verif.MemSpec Verif.EncVM Verif.EncSpec Verif.EncFacts Verif.EncCycle Verif.EncLoad Verif.EncRun Verif.EncEval Verif.Scratch Verif.CycleScratch Verif.DecodeSpec
  Verif.ShadowSpec Verif.PropShadow Verif.PropExact Verif.Asm Verif.RepoTests Verif.RepoRuns Verif.PropRuns Verif.PropText Verif.PropTextEnc Verif.TextHostRun Verif.TextFheTests Verif.TextFheFacts.
Module PE := Verif.PropTextEnc.
Module HR := Verif.TextHostRun.
Module FT := Verif.TextFheTests.
Module TF := Verif.TextFheFacts.
Module RT := Verif.RepoTests.
Module RR := Verif.RepoRuns.
Module PR := Verif.PropRuns.
Module ES := Verif.EncSpec.
Import ListNotations.
Open Scope Z_scope.

Section Runs.
Context {GL KL SL Src : Type}.
Variables (log : nat) (sp : space GL KL SL) (garbage : Z -> nat -> list Z) (garbage_i64 : Z -> nat -> int I64)
  (gl_n : GL -> Z) (enc dec : Z -> list Z -> list Z) (next : Src -> Src)
  (sw : word_space GL KL SL) (shuffle : list (nat * list Z) -> list (nat * list Z)).
Notation A := (G.Ideal log).
Notation L := (lib A sp garbage garbage_i64 gl_n enc dec next).
Notation N := (eng A sp garbage garbage_i64 gl_n enc dec next sw (ideal_bdd log) G.decrypt_word Bdd.pack_bits shuffle).
Variables (p : profile) (l : GL) (sl : SL) (kl : KL) (fuel : nat) (pm : layouts GL SL).
Notation interp := (interp A sp garbage garbage_i64 gl_n enc dec next l sl).
Notation client_ok := (PE.client_ok log sp gl_n enc dec l sl pm).
Notation y := (cycle_costs_at sp sw l sl kl).
Notation text_cycles := (PE.text_cycles A sp garbage garbage_i64 gl_n enc dec next sw (ideal_bdd log) G.decrypt_word Bdd.pack_bits shuffle p kl fuel).
Variable (Hs : host L N) (Q : tests L N Hs).
Notation gives := (HR.gives log sp garbage garbage_i64 gl_n enc dec next sw shuffle Hs).
Notation keys_ok := (HR.keys_ok log sp garbage garbage_i64 gl_n enc dec next sw shuffle kl Hs).
Notation tests_ok := (TF.tests_ok log sp garbage garbage_i64 gl_n enc dec next sw shuffle l sl Hs Q).

Ltac head tac := lazymatch goal with |- match ?x with _ => _ end = _ => tac x end.
Ltac keys := lazymatch goal with HK : keys_ok |- match ?x with _ => _ end = _ =>
  let K1 := fresh in let K2 := fresh in let K3 := fresh in let K4 := fresh in let K5 := fresh in
  pose proof HK as (K1 & K2 & K3 & K4 & K5);
  lazymatch x with
  | GLWESecret_fill_ternary_prob _ ?a ?b ?c => specialize (K1 a b c); destruct x as [[? ?]|]; [|destruct (K1 eq_refl)]
  | LWESecret_fill_binary_block _ ?a ?b ?c => specialize (K2 a b c); destruct x as [[? ?]|]; [|destruct (K2 eq_refl)]
  | Secret_prepare _ ?a ?b ?c => specialize (K3 a b c); destruct x as [[]|]; [|destruct (K3 eq_refl)]
  | VMKeys_encrypt_sk _ ?a ?b ?c ?d ?e => specialize (K4 a b c d e); destruct x as [[[? ?] ?]|]; [|destruct (K4 eq_refl)]
  | Keys_prepare _ ?a ?b ?c ?d => rewrite (K5 a b c d)
  end; clear K1 K2 K3 K4 K5; cbv iota beta zeta end.

(** [Interpreter::new] and what it leaves *)
Lemma new_run : forall (debug : bool) (a24 : Z) (rom_words ram_words : nat), client_ok a24 -> (0 < rom_words)%nat -> Z.of_nat rom_words < 2 ^ 64 -> (0 < ram_words)%nat -> Z.of_nat ram_words < 2 ^ 64 ->
  (if debug then T.Interpreter_new_with_debug L N p pm (zi rom_words) (zi ram_words)
   else T.Interpreter_new L N p pm (zi rom_words) (zi ram_words)) =
  option_map (interp false 1 (buf0 A)) (V.evm_new A debug rom_words ram_words).
Proof.
  intros debug a24 rw mw (H1 & H2 & H3 & H4 & H5 & _) R1 R2 M1 M2.
  rewrite <- (new_text A sp garbage garbage_i64 gl_n enc dec next sw (ideal_bdd log) G.decrypt_word Bdd.pack_bits shuffle p l sl debug pm rw mw H1 H2 H3 H4 H5 R1 R2 M1 M2).
  destruct debug; unfold T.Interpreter_new_with_debug, T.Interpreter_new; destruct (T.Interpreter_new_internal _ _ _ _ _ _ _); reflexivity.
Qed.
Lemma new_shape : forall debug rom_words ram_words v, (0 < rom_words)%nat -> (0 < ram_words)%nat -> V.evm_new A debug rom_words ram_words = Some v ->
  rom_some (V.v_rom v) /\ rom_shape (V.v_debug v) /\ planes_some (V.v_ram v).
Proof.
  intros debug rw mw v R1 M1 E. unfold V.evm_new in E.
  destruct (M.mem_alloc A 32 rw) as [m|] eqn:E1; [|discriminate]. destruct (M.mem_alloc A 32 32) as [m2|]; [|discriminate].
  destruct (M.mem_alloc A 32 mw) as [m3|] eqn:E3; [|discriminate].
  destruct (Word.bit_len_pred (Z.of_nat mw)); [|discriminate]. destruct (Word.bit_len_pred (Z.of_nat rw)); [|discriminate].
  injection E as <-. cbn [V.v_rom V.v_debug V.v_ram].
  pose proof (PE.alloc_some _ _ _ _ R1 E1) as S1. pose proof (PE.alloc_some _ _ _ _ M1 E3) as S3.
  split; [|split; [|exact S3]].
  - exact (conj S1 (conj S1 (conj S1 (conj S1 (conj S1 (conj S1 S1)))))).
  - destruct debug; [|exact Logic.I]. unfold rom_shape, F.rom_len, DM.dvm_new. cbn. rewrite !repeat_length. repeat split.
Qed.
Lemma ins_loop : forall ws q,
  for_each (map (@Int U32) ws) (fun inst q => t <- TextInstr.Instruction_new p inst ;; q <- TextInstr.InstructionsParser_add p q t ;; Some q) q =
  PropText.adds p q (map F.ins ws).
Proof.
  induction ws as [|w ws IH]; intro q; [reflexivity|]. cbn [for_each map PropText.adds].
  change (TextInstr.Instruction_new p (Int w)) with (Some (F.ins w)). cbv iota beta.
  destruct (TextInstr.InstructionsParser_add p q (F.ins w)); [apply IH|reflexivity].
Qed.
Lemma ecycle_chk : forall k e c v, V.v_cycle v + 1 < 2 ^ 32 -> V.ecycle A k e c v = V.ecycle A k e false v.
Proof.
  intros k e c v H. unfold V.ecycle. change (2 ^ 32) with 4294967296 in H. rewrite (proj2 (Z.ltb_lt _ _) H), !orb_true_r. reflexivity.
Qed.

(** the cycles have at least the bytes of the client *)
Lemma noop_text : forall a24 a28, a24 = 2 ^ 24 -> a28 = 2 ^ 28 -> client_ok a24 -> gives a24 -> gives a28 -> keys_ok -> CryptographicParameters_new Hs = pm ->
  tests_ok a24 -> (7 < fuel)%nat -> (log <= 62)%nat -> shuffles shuffle ->
  PE.in_bytes sp sw l sl kl log 10 10 16 -> Sc.need a28 (w_dec sw l) <> None ->
  FT.interpreters_test_interpreter_cycle_single_instruction_noop L N Hs Q p fuel =
  match Y.cycle_space y (Z.of_nat log) 10 5 10 true false 16 a28 with Some _ => Some tt | None => None end.
Proof.
  intros a24 a28 E24 E28 CO (s24 & G1 & G2) (s28 & G3 & G4) HK PM (T1 & T2 & T3) FU LG SHF IB DN.
  set (e := PE.seq_env 16). assert (EO : ES.env_ok e) by (apply (PE.seq_env_ok garbage garbage_i64 gl_n enc dec l); discriminate).
  assert (FW : Forall Isa.word [115; 115]) by (repeat constructor; unfold Isa.word; lia).
  pose proof (PR.C83_noop_system log (debug_assertions p) 1024 10 10 [115; 115] e FW ltac:(repeat constructor) ltac:(discriminate) ltac:(cbn; lia) eq_refl ltac:(lia) ltac:(lia) EO) as NS.
  pose proof (proj1 (PR.C83_noop log (debug_assertions p) 1024 10 10 [115; 115] e FW eq_refl ltac:(lia) ltac:(lia) EO) NS) as (AC & _).
  destruct (PR.programmed_ok log (debug_assertions p) 1024 10 10 [115; 115] FW eq_refl ltac:(lia) ltac:(lia) AC ltac:(cbn; lia)) as (q & v & r & PG & P3 & HF & SH & VD & VC & VZ).
  change (2 ^ 10)%nat with 1024%nat in *.
  unfold RR.test_noop in NS. rewrite PG in NS.
  set (v1 := {| V.v_cycle := V.v_cycle v |}) in NS.
  unfold RR.programmed in PG.
  destruct (EncVM.evm_new (Glwe.Ideal log) false 1024 1024) as [v0|] eqn:E0; [|discriminate].
  destruct (Codec.parser_add_all (debug_assertions p) Codec.parser_new [115; 115]) as [q'|] eqn:E1; [|discriminate].
  destruct (EncVM.instructions_encrypt log (debug_assertions p) v0 q') as [v'|] eqn:E2; [|discriminate].
  injection PG as -> ->.
  destruct (new_shape false 1024 1024 v0 ltac:(lia) ltac:(lia) E0) as (S1 & S2 & S3).
  pose proof (new_run false a24 1024 1024 CO ltac:(lia) ltac:(lia) ltac:(lia) ltac:(lia)) as NR. cbv iota in NR.
  replace (V.evm_new A false 1024 1024) with (Some v0) in NR by (symmetry; exact E0). cbn [option_map] in NR.
  pose proof CO as (P1 & P2 & P3' & P4 & P5 & P6 & P7 & P8 & P9 & P10 & P11 & P12).
  unfold FT.interpreters_test_interpreter_cycle_single_instruction_noop. rewrite PM. cbv zeta.
  head ltac:(fun x => change x with (Some (@Int USize (2 ^ 24)))). rewrite <- E24. cbv iota beta. rewrite G1. cbv iota beta. rewrite G2.
  keys. keys.
  head ltac:(fun x => change x with (Some (zi 1024))). cbv iota beta.
  rewrite NR. cbv iota beta.
  change (TextInstr.InstructionsParser_new p) with (Some (F.parser_of Verif.Codec.parser_new)). cbv iota beta.
  head ltac:(fun x => replace x with (option_map F.parser_of (Codec.parser_add_all (debug_assertions p) Codec.parser_new [115; 115]))
    by (rewrite <- PropText.adds_eq; symmetry; exact (ins_loop [115; 115] _))).
  rewrite E1. cbn [option_map]. cbv iota beta. keys.
  match goal with |- match ?x with _ => _ end = _ => lazymatch x with T.Interpreter_instructions_encrypt_sk _ _ _ _ _ _ ?xa ?xe _ =>
    pose proof (instructions_text A sp garbage garbage_i64 gl_n enc dec next p l sl P6 P8 P9 a24 P11 false 1 (buf0 A) v0 q xa xe
      ltac:(eapply PropText.raw_ins; [exact E1|reflexivity]) S1 S2) as IT end end.
  change (G.log_n A) with log in IT. replace (V.instructions_encrypt log (debug_assertions p) v0 q) with (Some v) in IT by (symmetry; exact E2). cbn [option_map] in IT.
  head ltac:(fun x => lazymatch type of IT with _ = ?rhs => replace x with rhs by (symmetry; exact IT) end). clear IT. cbv iota beta.
  match goal with |- match ?x with _ => _ end = _ => lazymatch x with FheUint_encrypt_sk _ _ _ _ _ ?xa ?xe _ =>
    destruct (T2 (V.v_pc v) 0 xa xe) as (xa2 & xe2 & ET) end end.
  head ltac:(fun x => lazymatch type of ET with _ = ?rhs => replace x with rhs by (symmetry; exact ET) end). clear ET. cbv iota beta.
  head ltac:(fun x => change x with (Some (@Int USize (2 ^ 28)))). rewrite <- E28. cbv iota beta. rewrite G3. cbv iota beta. rewrite G4.
  keys. keys.
  head ltac:(fun x => change x with (Some (interp true 1 (buf0 A) v1))). cbv iota beta.
  head ltac:(fun x => change x with (Some (interp true 16 (buf0 A) v1))). cbv iota beta.
  assert (SH1 : ES.shows log 10 10 v1 (ES.xstart 1024 1024 r [])).
  { clear - SH. unfold ES.shows in *. subst v1. cbn [V.v_rom V.v_rom_size V.v_rom_bits V.v_regs V.v_ram V.v_ram_size V.v_ram_bits V.v_pc V.v_pcp V.v_cycle].
    destruct SH as (U1 & U2 & U3 & U4 & U5 & U6 & U7 & U8 & U9 & U10 & U11 & U12 & U13 & U14 & U15).
    repeat (split; [assumption|]). split; [|exact U15]. apply EncFacts.enc_word. cbn [ES.x_pc ES.xstart]. unfold MemSpec.is_word; lia. }
  assert (D1 : V.v_debug v1 = None) by exact VD.
  pose proof (PE.shows_fit log garbage garbage_i64 gl_n enc dec l fuel 10 10 v1 _ SH1 ltac:(rewrite D1; exact Logic.I)) as FV.
  pose proof (PE.C98_cycle A sp garbage garbage_i64 gl_n enc dec next sw (ideal_bdd log) G.decrypt_word Bdd.pack_bits shuffle p l sl kl fuel None e a28 true (buf0 A) v1
    (conj FU (conj LG (conj (ideal_select log) (conj SHF (ideal_circuits log)))))) as C.
  pose proof SH1 as (_ & _ & _ & S4 & _ & _ & _ & _ & _ & _ & _ & S12 & _ & _ & _ & S16 & _). cbn [ES.x_cycle ES.xstart] in S16.
  rewrite S4, S12, S16 in C. specialize (C IB (fun _ => EO) (PE.wide_0 A) FV). rewrite D1 in C.
  change (keyed None None) with false in C. change (0 =? 0) with true in C. change (V.n_threads e) with 16%nat in C. change (G.log_n A) with log in C.
  change (PE.key_of _ _ _ _ _ _ _ _ _ _ _ _ None a28) with (@None (V.secret G.poly bool (list Z))) in C.
  rewrite ecycle_chk in C by (rewrite S16; lia).
  change (Z.of_nat 10) with 10 in C. change (Z.of_nat 16) with 16 in C.
  destruct (Y.cycle_space y (Z.of_nat log) 10 5 10 true false 16 a28).
  2: { head ltac:(fun x => lazymatch type of C with _ = ?rhs => replace x with rhs by (symmetry; exact C) end). reflexivity. }
  assert (EQ : EncVM.ecycle (Glwe.Ideal log) None e (debug_assertions p) v1 = V.ecycle A None e false v1) by (apply ecycle_chk; rewrite S16; lia).
  rewrite EQ in NS. clear EQ.
  destruct (V.ecycle A None e false v1) as [vv|]; [|discriminate NS].
  destruct C as (b' & C & _).
  head ltac:(fun x => lazymatch type of C with _ = ?rhs => replace x with rhs by (symmetry; exact C) end). clear C. cbv iota beta.
  head ltac:(fun x => replace x with (Some (@Int U32 (G.decrypt_word (V.v_pc vv))))
      by (symmetry; etransitivity; [exact (decrypt_text A sp garbage garbage_i64 gl_n enc dec next sw (ideal_bdd log) G.decrypt_word Bdd.pack_bits shuffle l a28 _)|];
      destruct (Sc.need a28 (w_dec sw l)); [reflexivity|destruct (DN eq_refl)])).
  cbv iota beta. destruct (Glwe.decrypt_word (EncVM.v_pc vv) =? 4) eqn:D4; [|discriminate NS].
  lazymatch goal with |- (if ?b then _ else _) = _ => replace b with true by (symmetry; exact D4) end. reflexivity.
Qed.

(** ** The test of the cycles *)
Definition cycle_words : list Z := [266167; 180146359; 250675511; 1081747; 4169763; 5214099; 4043350419; 4169763; 5214099].
Ltac known x := let f := eval pattern p in x in lazymatch f with ?g _ =>
  let v := eval vm_compute in (g (Build_profile true true)) in
  let E := fresh in assert (E : x = v) by (clear; first [reflexivity|destruct p as [[] []]; vm_compute; reflexivity]); rewrite E; clear E end; cbv iota beta.
Lemma cycles_loop : forall n k (s : T.Interpreter L) avail,
  for_each (counting n k) (fun (_ : int USize) s => t <- T.Interpreter_cycle_debug L N p fuel s tt kl tt avail ;; Some t) s = text_cycles (Some tt) n s avail.
Proof.
  induction n as [|n IH]; intros k s avail; [reflexivity|]. cbn [counting for_each PE.text_cycles PE.text_cycle].
  destruct (T.Interpreter_cycle_debug L N p fuel s tt kl tt avail); [apply IH|reflexivity].
Qed.

Lemma cycles_text : forall a24 a28, a24 = 2 ^ 24 -> a28 = 2 ^ 28 -> client_ok a24 -> gives a24 -> gives a28 -> keys_ok -> CryptographicParameters_new Hs = pm ->
  (7 < fuel)%nat -> (log <= 62)%nat -> shuffles shuffle -> PE.in_bytes sp sw l sl kl log 4 6 1 ->
  FT.cycle_test_interpreter_cycles L N Hs Q p fuel =
  match Y.cycles_space y (Z.of_nat log) 4 5 6 true true 1 a28 9 with Some _ => Some tt | None => None end.
Proof.
  intros a24 a28 E24 E28 CO (s24 & G1 & G2) (s28 & G3 & G4) HK PM FU LG SHF IB.
  set (e := PE.seq_env 1). assert (EO : ES.env_ok e) by (apply (PE.seq_env_ok garbage garbage_i64 gl_n enc dec l); discriminate).
  set (ram := repeat 0 64).
  assert (FW : Forall Isa.word cycle_words) by (repeat (apply Forall_cons || apply Forall_nil); unfold Isa.word; lia).
  assert (FR : Forall Isa.word ram) by (apply Forall_forall; intros x Hx; apply repeat_spec in Hx; subst; unfold Isa.word; lia).
  assert (ST : Forall PR.straight cycle_words) by (repeat (apply Forall_cons || apply Forall_nil); vm_compute; exact Logic.I).
  assert (FT : EncRun.fits true 9 4 6 cycle_words ram) by (unfold EncRun.fits; rewrite (repeat_length 0 64 : length ram = 64%nat); repeat split; auto; cbn; lia).
  assert (AC : Forall (DecodeSpec.accepted (debug_assertions p)) cycle_words).
  { rewrite Forall_forall in *. intros w Hw. apply PropExact.C59_accepted; [now apply FW|]. specialize (ST w Hw).
    unfold PR.straight in ST. destruct (ExactSpec.action_of w); [discriminate|destruct ST]. }
  destruct (EncRun.boots_exists log (debug_assertions p) true 9 4 6 cycle_words ram FT AC) as (v0 & BO).
  destruct (EncRun.boots_shows _ _ _ _ _ _ _ _ _ FT BO) as (r & HF & SH & DB).
  pose proof (PropShadow.C63_checked_runs_exact log (debug_assertions p) 9 4 6 cycle_words ram v0 _ (overflow_checks p) (repeat e 9) FT BO
    (PE.text_key log sp garbage garbage_i64 gl_n enc dec next p l sl fuel pm a28 (Some tt)
       ltac:(destruct CO as (P1 & P2 & P3 & P4 & P5 & P6 & P7 & P8 & P9 & P10 & P11 & P12); do 10 (split; [assumption|]); subst a24 a28; split;
         (eapply Z.le_trans; [eassumption|]); apply Z.pow_le_mono_r; lia))
    ltac:(apply Forall_forall; intros e' I; apply repeat_spec in I; subst e'; exact EO) ltac:(cbn; lia)) as C.
  rewrite repeat_length in C.
  pose proof (PR.straight_run (2 ^ Z.of_nat 6) cycle_words ST ltac:(cbn; lia) 9 0 (ShadowSpec.sh_start ram) eq_refl ltac:(cbn; lia)) as NZ.
  destruct (ShadowSpec.sh_run true (2 ^ Z.of_nat 6) cycle_words 9 (ShadowSpec.sh_start ram)) as [m|]; [clear NZ|destruct (NZ eq_refl)].
  destruct BO as (q & E1 & BO). unfold ES.load in BO. change (2 ^ 6)%nat with 64%nat in *.
  destruct (EncVM.evm_new (Glwe.Ideal log) true 9 64) as [w0|] eqn:E0; [|discriminate].
  destruct (EncVM.instructions_encrypt log (debug_assertions p) w0 q) as [w1|] eqn:E2; [|discriminate].
  destruct (new_shape true 9 64 w0 ltac:(lia) ltac:(lia) E0) as (S1 & S2 & S3).
  pose proof (new_run true a24 9 64 CO ltac:(lia) ltac:(lia) ltac:(lia) ltac:(lia)) as NR. cbv iota in NR.
  replace (V.evm_new A true 9 64) with (Some w0) in NR by (symmetry; exact E0). cbn [option_map] in NR.
  pose proof CO as (P1 & P2 & P3 & P4 & P5 & P6 & P7 & P8 & P9 & P10 & P11 & P12).
  unfold FT.cycle_test_interpreter_cycles. cbv zeta.
  repeat (head ltac:(fun x => lazymatch x with TextInstr.RV32I_new _ _ => known x | TextInstr.Instruction_set_imm _ _ _ => known x | TextInstr.Instruction_set_rd _ _ _ => known x
    | TextInstr.Instruction_set_rs1 _ _ _ => known x | TextInstr.Instruction_set_rs2 _ _ _ => known x | shl _ _ (lit 6) => known x end)).
  rewrite PM. cbv zeta.
  head ltac:(fun x => change x with (Some (@Int USize (2 ^ 24)))). rewrite <- E24. cbv iota beta. rewrite G1. cbv iota beta. rewrite G2.
  keys. keys.
  head ltac:(fun x => change x with (T.Interpreter_new_with_debug L N p pm (zi 9) (zi 64))). rewrite NR. cbv iota beta.
  change (TextInstr.InstructionsParser_new p) with (Some (F.parser_of Verif.Codec.parser_new)). cbv iota beta.
  head ltac:(fun x => replace x with (option_map F.parser_of (Codec.parser_add_all (debug_assertions p) Codec.parser_new cycle_words))
    by (rewrite <- PropText.adds_eq; symmetry; exact (HR.parser_loop p _ _))).
  rewrite E1. cbn [option_map]. cbv iota beta. keys.
  match goal with |- match ?x with _ => _ end = _ => lazymatch x with T.Interpreter_instructions_encrypt_sk _ _ _ _ _ _ ?xa ?xe _ =>
    pose proof (instructions_text A sp garbage garbage_i64 gl_n enc dec next p l sl P6 P8 P9 a24 P11 false 1 (buf0 A) w0 q xa xe
      ltac:(eapply PropText.raw_ins; [exact E1|reflexivity]) S1 S2) as IT end end.
  change (G.log_n A) with log in IT. replace (V.instructions_encrypt log (debug_assertions p) w0 q) with (Some w1) in IT by (symmetry; exact E2). cbn [option_map] in IT.
  head ltac:(fun x => lazymatch type of IT with _ = ?rhs => replace x with rhs by (symmetry; exact IT) end). clear IT. cbv iota beta.
  assert (S4 : planes_some (V.v_ram w1)).
  { replace (V.v_ram w1) with (V.v_ram w0); [exact S3|]. clear - E2. unfold EncVM.instructions_encrypt in E2. cbv zeta in E2.
    repeat match type of E2 with match ?x with _ => _ end = Some _ => destruct x; try discriminate E2 end.
    injection E2 as <-. reflexivity. }
  match goal with |- match ?x with _ => _ end = _ => lazymatch x with T.Interpreter_ram_encrypt_sk _ _ _ _ _ _ ?xa ?xe _ =>
    pose proof (ram_enc_text A sp garbage garbage_i64 gl_n enc dec next p l sl P6 P8 P9 a24 P11 false 1 (buf0 A) w1 ram xa xe S4) as IT end end.
  change (G.log_n A) with log in IT. replace (V.ram_encrypt log w1 ram) with (Some v0) in IT by (symmetry; exact BO). cbn [option_map] in IT.
  head ltac:(fun x => lazymatch type of IT with _ = ?rhs => replace x with rhs by (symmetry; exact IT) end). clear IT. cbv iota beta.
  head ltac:(fun x => change x with (Some (@Int USize (2 ^ 28)))). rewrite <- E28. cbv iota beta. rewrite G3. cbv iota beta. rewrite G4.
  keys. keys.
  head ltac:(fun x => change x with (Some (interp true 1 (buf0 A) v0))). cbv iota beta.
  head ltac:(fun x => replace x with (text_cycles (Some tt) 9 (interp true 1 (buf0 A) v0) a28) by (symmetry; exact (cycles_loop 9 0 _ a28))).
  assert (FD : full_o (V.v_debug v0)).
  { rewrite DB. apply (PE.start_full garbage garbage_i64 gl_n enc dec l 9 64 (debug_assertions p) r ram cycle_words HF); [|exact FR].
    destruct SH as (((_ & _ & _ & W & _) & _) & _). cbn [ES.x_rom ES.xstart ES.pad_roms DM.imm_rom] in W. apply Forall_app in W. apply W. }
  pose proof (PE.shows_fit log garbage garbage_i64 gl_n enc dec l fuel 4 6 v0 _ SH FD) as FV.
  pose proof SH as (_ & _ & _ & S5 & _ & _ & _ & _ & _ & _ & _ & S12 & _ & _ & _ & S16 & _). cbn [ES.x_cycle ES.xstart] in S16.
  pose proof (PE.C98_run A sp garbage garbage_i64 gl_n enc dec next sw (ideal_bdd log) G.decrypt_word Bdd.pack_bits shuffle p l sl kl fuel
    (Some tt) a28 true 1 (repeat e 9) (buf0 A) v0) as R.
  rewrite S5, S12, S16, repeat_length in R. change (0 =? 0) with true in R.
  specialize (R (conj FU (conj LG (conj (ideal_select log) (conj SHF (ideal_circuits log))))) IB
    ltac:(apply Forall_forall; intros e' I; apply repeat_spec in I; subst e'; split; [reflexivity|intro; exact EO]) (PE.wide_0 A) FV ltac:(cbn; lia)).
  change (G.log_n A) with log in R. rewrite DB in R. change (keyed (Some tt) (Some (EncLoad.dstart 9 64 r ram))) with true in R.
  change (Z.of_nat 4) with 4 in R. change (Z.of_nat 6) with 6 in R. change (Z.of_nat 1) with 1 in R.
  destruct (Y.cycles_space y (Z.of_nat log) 4 5 6 true true 1 a28 9).
  2: { rewrite R. reflexivity. }
  destruct (V.ecycles _ _ _ _ _) as [vv|] eqn:EC.
  - destruct R as (b' & R & _). rewrite R. reflexivity.
  - replace (EncVM.ecycles (Glwe.Ideal log) _ _ _ v0) with (@None (V.evm G.poly bool (list Z))) in C by (symmetry; exact EC). destruct C.
Qed.
End Runs.
