(** * The translated homomorphic tests of the interpreter that fetch instructions (helper lemmas) *)
Require Import ZArith List Bool Lia.
From Verif Require Import Rust RustIter RustStr RustLib RustEng RustHost RustTests TextLib TextEng TextEngFacts TextMemFacts TextPrep TextMemClient PropTextMem TextPlanes TextShadow TextCycle TextClient TextIdeal.
Require Verif.Word Verif.Isa Verif.Codec Verif.Glwe Verif.EncMem Verif.MemSpec Verif.EncVM Verif.EncSpec Verif.EncFacts Verif.EncCycle Verif.EncLoad Verif.EncRun Verif.EncEval Verif.Scratch Verif.CycleScratch Verif.DecodeSpec
  Verif.ShadowSpec Verif.PropShadow Verif.PropExact Verif.Asm Verif.RepoTests Verif.RepoRuns Verif.PropRuns Verif.PropText Verif.PropTextEnc Verif.TextHostRun Verif.TextFheTests Verif.TextFheFacts Verif.TextFheRuns.
Module PE := Verif.PropTextEnc.
Module HR := Verif.TextHostRun.
Module FT := Verif.TextFheTests.
Module TF := Verif.TextFheFacts.
Module TR := Verif.TextFheRuns.
Module RT := Verif.RepoTests.
Module RR := Verif.RepoRuns.
Module PR := Verif.PropRuns.
Module ES := Verif.EncSpec.
Import ListNotations.
Open Scope Z_scope.

Section Fetch.
Context {GL KL SL Src : Type}.
Variables (log : nat) (sp : space GL KL SL) (garbage : Z -> nat -> list Z) (garbage_i64 : Z -> nat -> int I64)
  (gl_n : GL -> Z) (enc dec : Z -> list Z -> list Z) (next : Src -> Src)
  (sw : word_space GL KL SL) (shuffle : list (nat * list Z) -> list (nat * list Z)).
Notation A := (G.Ideal log).
Notation L := (lib A sp garbage garbage_i64 gl_n enc dec next).
Notation N := (eng A sp garbage garbage_i64 gl_n enc dec next sw (ideal_bdd log) G.decrypt_word Bdd.pack_bits shuffle).
Variables (p : profile) (l : GL) (sl : SL) (kl : KL) (fuel : nat) (pm : layouts GL SL).
Notation interp := (interp A sp garbage garbage_i64 gl_n enc dec next l sl).
Notation client_ok := (PE.client_ok log sp gl_n enc dec l sl pm).
Notation y := (cycle_costs_at sp sw l sl kl).
Notation text_cycles := (PE.text_cycles A sp garbage garbage_i64 gl_n enc dec next sw (ideal_bdd log) G.decrypt_word Bdd.pack_bits shuffle p kl fuel).
Variable (Hs : host L N) (Q : tests L N Hs).
Notation gives := (HR.gives log sp garbage garbage_i64 gl_n enc dec next sw shuffle Hs).
Notation keys_ok := (HR.keys_ok log sp garbage garbage_i64 gl_n enc dec next sw shuffle kl Hs).
Notation tests_ok := (TF.tests_ok log sp garbage garbage_i64 gl_n enc dec next sw shuffle l sl Hs Q).

Ltac head tac := lazymatch goal with |- match ?x with _ => _ end = _ => tac x end.
Ltac keys := lazymatch goal with HK : keys_ok |- match ?x with _ => _ end = _ =>
  let K1 := fresh in let K2 := fresh in let K3 := fresh in let K4 := fresh in let K5 := fresh in
  pose proof HK as (K1 & K2 & K3 & K4 & K5);
  lazymatch x with
  | GLWESecret_fill_ternary_prob _ ?a ?b ?c => specialize (K1 a b c); destruct x as [[? ?]|]; [|destruct (K1 eq_refl)]
  | LWESecret_fill_binary_block _ ?a ?b ?c => specialize (K2 a b c); destruct x as [[? ?]|]; [|destruct (K2 eq_refl)]
  | Secret_prepare _ ?a ?b ?c => specialize (K3 a b c); destruct x as [[]|]; [|destruct (K3 eq_refl)]
  | VMKeys_encrypt_sk _ ?a ?b ?c ?d ?e => specialize (K4 a b c d e); destruct x as [[[? ?] ?]|]; [|destruct (K4 eq_refl)]
  | Keys_prepare _ ?a ?b ?c ?d => rewrite (K5 a b c d)
  end; clear K1 K2 K3 K4 K5; cbv iota beta zeta end.


Notation e1 := (PE.seq_env 1).
Notation at1 v pcp := (at_ v None (V.v_rom v) (V.v_regs v) (V.v_ram v) (V.v_pc v) pcp).

Lemma eqb_list_eq : forall a b, EncVM.eqb_list a b = true -> a = b.
Proof.
  induction a as [|x a IH]; intros [|z b] H; try discriminate H; [reflexivity|]. cbn in H. apply andb_prop in H as [H1 H2].
  apply Z.eqb_eq in H1. subst z. now rewrite (IH b H2).
Qed.

Lemma read_none : forall k e er pcp er' d ps, EncVM.read_components A k e None er pcp = Some (er', d, ps) -> d = None.
Proof.
  intros k e er pcp er' d ps H. unfold EncVM.read_components, EncVM.shadow in H.
  destruct k; cbv beta iota zeta in H; repeat match type of H with match ?x with _ => _ end = Some _ => destruct x; try discriminate H end; injection H; congruence.
Qed.

(** one fetch with the key and without shadow VM, after which the words of the
    struct decrypt to the row that the model compares with *)
Lemma fetch_run : forall avail dbg q b v pcp idx, (7 < fuel)%nat -> (log <= 62)%nat -> PE.in_bytes sp sw l sl kl log 10 10 1 -> wide_b b -> rom32 (V.v_rom v) -> length pcp = 32%nat ->
  RR.fetch_check log dbg q e1 (V.v_rom v) pcp idx = Some (V.v_rom v) ->
  exists w im r1 r2 rd o1 o2 o3, Codec.parser_get_raw q idx = Some w /\ Codec.get_imm dbg w = Some im /\ Codec.get_registers dbg w = Some (r2, r1, rd) /\
    Codec.get_opid dbg w = Some (o1, o2, o3) /\
  let t := T.Interpreter_read_and_prepare_instruction_components L N p fuel (interp false 1 b (at1 v pcp)) (zi 1) tt kl (Some tt) avail in
  match Y.instruction_space y 1 avail with
  | Some _ => exists b', t = Some (interp false 1 b' (at1 v pcp)) /\ wide_b b' /\ map G.decrypt_word [b_imm b'; b_rs1_addr b'; b_rs2_addr b'; b_rd_addr b'; b_rdu b'; b_mu b'; b_pcu b'] =
      [im; r1; r2; rd; Codec.rd_id o1; Codec.ram_id o2; Codec.pc_id o3]
  | None => t = None
  end.
Proof.
  intros avail dbg q b v pcp idx FU LG (SZ & D0 & FS & FZ & FB & FW & FR & FV & RB & RO) WB R32 LP FC. unfold RR.fetch_check in FC.
  destruct (Codec.parser_get_raw q idx) as [w|] eqn:Q1; [|discriminate]. destruct (Codec.get_imm dbg w) as [im|] eqn:Q2; [|discriminate].
  destruct (Codec.get_registers dbg w) as [[[r2 r1] rd]|] eqn:Q3; [|discriminate]. destruct (Codec.get_opid dbg w) as [[[o1 o2] o3]|] eqn:Q4; [|discriminate].
  exists w, im, r1, r2, rd, o1, o2, o3. do 4 (split; [first [assumption|reflexivity]|]). cbv zeta.
  pose proof (fetch_text A sp garbage garbage_i64 gl_n enc dec next sw (ideal_bdd log) G.decrypt_word Bdd.pack_bits shuffle p l sl kl fuel FU e1 avail LG D0 FS FB
    (fun _ => PE.seq_env_ok garbage garbage_i64 gl_n enc dec l 1 ltac:(discriminate)) false v (Some tt) b None (V.v_rom v) (V.v_regs v) (V.v_ram v) (V.v_pc v) pcp WB R32 Logic.I LP) as M.
  unfold meets in M. change (check sp sw l sl kl avail (Some tt) None true) with (Some tt) in M. change (V.n_threads e1) with 1%nat in M. change (Z.of_nat 1) with 1 in M.
  destruct (Y.instruction_space y 1 avail); [|exact M].
  match type of M with match ?x with _ => _ end => replace x with (V.read_components A (Some EncVM.secret_key) e1 None (V.v_rom v) pcp) in M by reflexivity end.
  change (V.read_components A) with (EncVM.read_components (Glwe.Ideal log)) in M.
  destruct (EncVM.read_components (Glwe.Ideal log) (Some EncVM.secret_key) e1 None (V.v_rom v) pcp) as [[[er d] ps]|] eqn:RC; [|discriminate FC]. apply read_none in RC. subst d.
  destruct M as (r & ET & b' & -> & PB & FE & WB' & _ & _).
  destruct FE as (F1 & F2 & F3 & F4 & F5 & F6 & F7).
  destruct (RR.fetch log e1 (V.v_rom v) pcp) as [cs|] eqn:FF; [|discriminate FC].
  unfold RR.fetch in FF. rewrite F1, F2, F3, F4, F5, F6, F7 in FF. injection FF as <-.
  destruct (EncVM.eqb_list _ _) eqn:EQ in FC; [|discriminate FC]. injection FC as ->.
  exists b'. split; [exact ET|]. split; [exact WB'|]. symmetry. apply eqb_list_eq. exact EQ.
Qed.

(** a key decrypts the seven words *)
Ltac dec_one DN a w := head ltac:(fun x => replace x with (Some (@Int U32 (G.decrypt_word w)))
      by (symmetry; etransitivity; [exact (decrypt_text A sp garbage garbage_i64 gl_n enc dec next sw (ideal_bdd log) G.decrypt_word Bdd.pack_bits shuffle l a w)|];
      destruct (Sc.need a (w_dec sw l)); [reflexivity|destruct (DN eq_refl)])); cbv iota beta.

(** the seven assertions *)
Lemma row_tail : forall im r1 r2 rd o1 o2 o3 w1 w2 w3 w4 w5 w6 w7,
  map G.decrypt_word [w1; w2; w3; w4; w5; w6; w7] = [im; r1; r2; rd; Codec.rd_id o1; Codec.ram_id o2; Codec.pc_id o3] -> forall (X : Type) (x : option X),
  (if eq (@Int U32 im) (Int (G.decrypt_word w1)) then if eq (cast U32 (@Int U32 r1)) (Int (G.decrypt_word w2)) then
   if eq (cast U32 (@Int U32 r2)) (Int (G.decrypt_word w3)) then if eq (cast U32 (@Int U32 rd)) (Int (G.decrypt_word w4)) then
   if eq (cast U32 (TextInstr.RD_UPDATE_discriminant (F.rd_of o1))) (Int (G.decrypt_word w5)) then
   if eq (cast U32 (TextInstr.RAM_UPDATE_discriminant (F.ram_of o2))) (Int (G.decrypt_word w6)) then
   if eq (cast U32 (TextInstr.PC_UPDATE_discriminant (F.pc_of o3))) (Int (G.decrypt_word w7)) then x else None
   else None else None else None else None else None else None) = x.
Proof.
  intros im r1 r2 rd o1 o2 o3 w1 w2 w3 w4 w5 w6 w7 H X x. cbn [map] in H.
  assert (H1 : G.decrypt_word w1 = im) by congruence. assert (H2 : G.decrypt_word w2 = r1) by congruence.
  assert (H3 : G.decrypt_word w3 = r2) by congruence. assert (H4 : G.decrypt_word w4 = rd) by congruence.
  assert (H5 : G.decrypt_word w5 = Codec.rd_id o1) by congruence. assert (H6 : G.decrypt_word w6 = Codec.ram_id o2) by congruence.
  assert (H7 : G.decrypt_word w7 = Codec.pc_id o3) by congruence. rewrite H1, H2, H3, H4, H5, H6, H7.
  unfold eq. cbn [val cast widens]. change (val (cast U32 (@Int U32 r1))) with r1. change (val (cast U32 (@Int U32 r2))) with r2. change (val (cast U32 (@Int U32 rd))) with rd.
  rewrite !Z.eqb_refl. destruct o1, o2, o3; reflexivity.
Qed.

Lemma one_text : forall a22, a22 = 2 ^ 22 -> client_ok a22 -> gives a22 -> keys_ok -> CryptographicParameters_new Hs = pm ->
  tests_ok a22 -> (7 < fuel)%nat -> (log <= 62)%nat ->
  PE.in_bytes sp sw l sl kl log 10 10 1 -> Sc.need a22 (w_dec sw l) <> None ->
  FT.interpreters_test_interpreter_init_one_instruction L N Hs Q p fuel =
  match Y.instruction_space y 1 a22 with Some _ => Some tt | None => None end.
Proof.
  intros a22 E22 CO (s22 & G1 & G2) HK PM (T1 & T2 & T3) FU LG IB DN.
  assert (EO : ES.env_ok e1) by (apply (PE.seq_env_ok garbage garbage_i64 gl_n enc dec l); discriminate).
  assert (W : Isa.word 258455) by (unfold Isa.word; lia).
  assert (FW : Forall Isa.word [258455]) by (repeat constructor; unfold Isa.word; lia).
  assert (AC : Forall (DecodeSpec.accepted (debug_assertions p)) [258455]).
  { constructor; [|constructor]. apply PropExact.C59_accepted; [exact W|]. vm_compute. discriminate. }
  destruct (PR.programmed_ok log (debug_assertions p) 1024 10 10 [258455] FW eq_refl ltac:(lia) ltac:(lia) AC ltac:(cbn; lia)) as (q & v & r & PG & P3 & HF & SH & VD & VC & VZ).
  change (2 ^ 10)%nat with 1024%nat in *.
  assert (FC : RR.fetch_check log (debug_assertions p) q e1 (V.v_rom v) (V.v_pcp v) 0 = Some (V.v_rom v)).
  { assert (P : ES.prepared (V.v_pcp v) (4 * Z.of_nat 0)) by apply SH. pose proof SH as (S1 & S2 & _). rewrite VZ in S2.
    exact (PR.check_fetch log (debug_assertions p) 1024 10 10 [258455] FW eq_refl ltac:(lia) ltac:(lia) q (V.v_rom v) r e1 (V.v_pcp v) 0 ltac:(cbn; lia) P3 HF S1 S2 EO P ltac:(cbn; lia)). }
  pose proof (PE.shows_fit log garbage garbage_i64 gl_n enc dec l fuel 10 10 v _ SH ltac:(rewrite VD; exact Logic.I)) as (R32 & _ & _ & _ & _ & _ & LP & _).
  set (v1 := at_ v None (V.v_rom v) (V.v_regs v) (V.v_ram v) (G.fhe_of_word 0) (V.v_pcp v)).
  destruct (fetch_run a22 (debug_assertions p) q (buf0 A) v1 (V.v_pcp v) 0 FU LG IB (PE.wide_0 A) R32 LP FC) as (w & im & r1 & r2 & rd & o1 & o2 & o3 & Q1 & Q2 & Q3 & Q4 & RUN).
  cbv zeta in RUN.
  unfold RR.programmed in PG.
  destruct (EncVM.evm_new (Glwe.Ideal log) false 1024 1024) as [v0|] eqn:E0; [|discriminate].
  destruct (Codec.parser_add_all (debug_assertions p) Codec.parser_new [258455]) as [q'|] eqn:E1; [|discriminate].
  destruct (EncVM.instructions_encrypt log (debug_assertions p) v0 q') as [v'|] eqn:E2; [|discriminate].
  injection PG as -> ->.
  destruct (TR.new_shape log false 1024 1024 v0 ltac:(lia) ltac:(lia) E0) as (S1 & S2 & S3).
  pose proof (TR.new_run log sp garbage garbage_i64 gl_n enc dec next sw shuffle p l sl pm false a22 1024 1024 CO ltac:(lia) ltac:(lia) ltac:(lia) ltac:(lia)) as NR. cbv iota in NR.
  replace (V.evm_new A false 1024 1024) with (Some v0) in NR by (symmetry; exact E0). cbn [option_map] in NR.
  pose proof CO as (P1 & P2 & P3' & P4 & P5 & P6 & P7 & P8 & P9 & P10 & P11 & P12).
  unfold FT.interpreters_test_interpreter_init_one_instruction. rewrite PM. cbv zeta.
  head ltac:(fun x => change x with (Some (@Int USize (2 ^ 22)))). rewrite <- E22. cbv iota beta. rewrite G1. cbv iota beta. rewrite G2.
  head ltac:(fun x => change x with (Some (zi 1024))). cbv iota beta.
  rewrite NR. cbv iota beta.
  keys. keys. keys.
  change (TextInstr.InstructionsParser_new p) with (Some (F.parser_of Verif.Codec.parser_new)). cbv iota beta.
  head ltac:(fun x => change x with (Some (F.ins 258455))). cbv iota beta.
  head ltac:(fun x => replace x with (option_map F.parser_of (Codec.parser_add_all (debug_assertions p) Codec.parser_new [258455]))
    by (rewrite <- PropText.adds_eq; cbn [map PropText.adds]; destruct (TextInstr.InstructionsParser_add _ _ _); reflexivity)).
  rewrite E1. cbn [option_map]. cbv iota beta.
  match goal with |- match ?x with _ => _ end = _ => lazymatch x with T.Interpreter_instructions_encrypt_sk _ _ _ _ _ _ ?xa ?xe _ =>
    pose proof (instructions_text A sp garbage garbage_i64 gl_n enc dec next p l sl P6 P8 P9 a22 P11 false 1 (buf0 A) v0 q xa xe
      ltac:(eapply PropText.raw_ins; [exact E1|reflexivity]) S1 S2) as IT end end.
  change (G.log_n A) with log in IT. replace (V.instructions_encrypt log (debug_assertions p) v0 q) with (Some v) in IT by (symmetry; exact E2). cbn [option_map] in IT.
  head ltac:(fun x => lazymatch type of IT with _ = ?rhs => replace x with rhs by (symmetry; exact IT) end). clear IT. cbv iota beta.
  assert (EI : interp false 1 (buf0 A) v = interp false 1 (buf0 A) (at1 v (V.v_pcp v))) by (unfold TextCycle.interp, at_; cbn [V.v_debug V.v_cycle V.v_rom_bits V.v_rom_size V.v_rom V.v_regs V.v_ram_bits V.v_ram_size V.v_ram V.v_pc V.v_pcp]; rewrite VD; reflexivity).
  rewrite EI. clear EI.
  head ltac:(fun x => replace x with (Some (F.ins w)) by (symmetry; etransitivity; [exact (F.parser_get_raw_eq p q 0)|]; rewrite Q1; reflexivity)). cbv iota beta.
  head ltac:(fun x => replace x with (Some (@Int U32 im)) by (symmetry; etransitivity; [exact (F.get_imm_eq p w)|]; rewrite Q2; reflexivity)). cbv iota beta.
  head ltac:(fun x => replace x with (Some (@Int U32 r2, @Int U32 r1, @Int U32 rd)) by (symmetry; etransitivity; [exact (F.get_registers_eq p w)|]; rewrite Q3; reflexivity)). cbv iota beta.
  head ltac:(fun x => replace x with (Some (F.rd_of o1, F.ram_of o2, F.pc_of o3)) by (symmetry; etransitivity; [exact (F.get_opid_eq p w)|]; rewrite Q4; reflexivity)). cbv iota beta.
  match goal with |- match ?x with _ => _ end = _ => lazymatch x with FheUint_encrypt_sk _ _ _ _ _ ?xa ?xe _ =>
    destruct (T2 (V.v_pc v) 0 xa xe) as (xa2 & xe2 & ET) end end.
  head ltac:(fun x => lazymatch type of ET with _ = ?rhs => replace x with rhs by (symmetry; exact ET) end). clear ET. cbv iota beta.
  keys. keys.
  destruct (Y.instruction_space y 1 a22).
  2: { head ltac:(fun x => lazymatch type of RUN with _ = ?rhs => replace x with rhs by (symmetry; exact RUN) end). reflexivity. }
  destruct RUN as (b' & RUN & _ & DEC).
  head ltac:(fun x => lazymatch type of RUN with _ = ?rhs => replace x with rhs by (symmetry; exact RUN) end). clear RUN. cbv iota beta.
  dec_one DN a22 (b_rs1_addr b'). dec_one DN a22 (b_rs2_addr b'). dec_one DN a22 (b_rd_addr b'). dec_one DN a22 (b_imm b').
  dec_one DN a22 (b_rdu b'). dec_one DN a22 (b_mu b'). dec_one DN a22 (b_pcu b'). clear - DEC. revert DEC.
  generalize (b_imm b') (b_rs1_addr b') (b_rs2_addr b') (b_rd_addr b') (b_rdu b') (b_mu b') (b_pcu b'). intros w1 w2 w3 w4 w5 w6 w7 DEC.
  exact (row_tail im r1 r2 rd o1 o2 o3 w1 w2 w3 w4 w5 w6 w7 DEC unit (Some tt)).
Qed.

(** a loop whose rounds all succeed, or all fail *)
Lemma rounds : forall {S} (ok : bool) (f : int USize -> S -> option S) (inv : S -> Prop) n k s,
  inv s -> (forall i s, (k <= i < k + n)%nat -> inv s -> if ok then exists s', f (Int (Z.of_nat i)) s = Some s' /\ inv s' else f (Int (Z.of_nat i)) s = None) ->
  if ok then exists s', for_each (counting n (Z.of_nat k)) f s = Some s' /\ inv s' else n <> 0%nat -> for_each (counting n (Z.of_nat k)) f s = None.
Proof.
  intros S ok f inv n. induction n as [|n IH]; intros k s IS HB.
  - destruct ok; [exists s; auto|congruence].
  - pose proof (HB k s ltac:(lia) IS) as B. cbn [counting for_each].
    destruct ok; [|intros _; rewrite B; reflexivity].
    destruct B as (s1 & -> & I1). cbv iota beta. replace (Z.of_nat k + 1) with (Z.of_nat (Datatypes.S k)) by lia.
    apply (IH (Datatypes.S k) s1 I1). intros i s2 R I2. apply (HB i s2 ltac:(lia) I2).
Qed.

Lemma many_text : forall a24, a24 = 2 ^ 24 -> client_ok a24 -> gives a24 -> keys_ok -> CryptographicParameters_new Hs = pm ->
  tests_ok a24 -> (7 < fuel)%nat -> (log <= 62)%nat ->
  PE.in_bytes sp sw l sl kl log 10 10 1 -> Sc.need a24 (w_dec sw l) <> None ->
  FT.interpreters_test_interpreter_init_many_instructions L N Hs Q p fuel =
  match Y.instruction_space y 1 a24 with Some _ => Some tt | None => None end.
Proof.
  intros a24 E24 CO (s24 & G1 & G2) HK PM (T1 & T2 & T3) FU LG IB DN.
  assert (EO : ES.env_ok e1) by (apply (PE.seq_env_ok garbage garbage_i64 gl_n enc dec l); discriminate).
  assert (FW : Forall Isa.word RR.many_words) by (repeat (apply Forall_cons || apply Forall_nil); unfold Isa.word; lia).
  assert (AC : Forall (DecodeSpec.accepted (debug_assertions p)) RR.many_words).
  { pose proof FW as FW'. revert FW'. generalize (eq_refl : forallb (fun w => match ExactSpec.action_of w with Some _ => true | None => false end) RR.many_words = true).
    generalize RR.many_words. intros ws HA HW. rewrite Forall_forall in *. rewrite forallb_forall in HA. intros w I. apply PropExact.C59_accepted; [now apply HW|].
    specialize (HA w I). cbv beta in HA. destruct (ExactSpec.action_of w); [discriminate|discriminate HA]. }
  destruct (PR.programmed_ok log (debug_assertions p) 1024 10 10 RR.many_words FW eq_refl ltac:(lia) ltac:(lia) AC ltac:(cbn; lia)) as (q & v & r & PG & P3 & HF & SH & VD & VC & VZ).
  change (2 ^ 10)%nat with 1024%nat in *.
  assert (FC : forall pcp idx, (idx < 12)%nat -> ES.prepared pcp (4 * Z.of_nat idx) -> RR.fetch_check log (debug_assertions p) q e1 (V.v_rom v) pcp idx = Some (V.v_rom v)).
  { intros pcp idx I P. pose proof SH as (S1 & S2 & _). rewrite VZ in S2.
    exact (PR.check_fetch log (debug_assertions p) 1024 10 10 RR.many_words FW eq_refl ltac:(lia) ltac:(lia) q (V.v_rom v) r e1 pcp idx ltac:(cbn; lia) P3 HF S1 S2 EO P I). }
  pose proof (PE.shows_fit log garbage garbage_i64 gl_n enc dec l fuel 10 10 v _ SH ltac:(rewrite VD; exact Logic.I)) as (R32 & _ & _ & _ & _ & _ & LP & _).
  unfold RR.programmed in PG.
  destruct (EncVM.evm_new (Glwe.Ideal log) false 1024 1024) as [v0|] eqn:E0; [|discriminate].
  destruct (Codec.parser_add_all (debug_assertions p) Codec.parser_new RR.many_words) as [q'|] eqn:E1; [|discriminate].
  destruct (EncVM.instructions_encrypt log (debug_assertions p) v0 q') as [v'|] eqn:E2; [|discriminate].
  injection PG as -> ->.
  destruct (TR.new_shape log false 1024 1024 v0 ltac:(lia) ltac:(lia) E0) as (S1 & S2 & S3).
  pose proof (TR.new_run log sp garbage garbage_i64 gl_n enc dec next sw shuffle p l sl pm false a24 1024 1024 CO ltac:(lia) ltac:(lia) ltac:(lia) ltac:(lia)) as NR. cbv iota in NR.
  replace (V.evm_new A false 1024 1024) with (Some v0) in NR by (symmetry; exact E0). cbn [option_map] in NR.
  pose proof CO as (P1 & P2 & P3' & P4 & P5 & P6 & P7 & P8 & P9 & P10 & P11 & P12).
  unfold FT.interpreters_test_interpreter_init_many_instructions. rewrite PM. cbv zeta.
  head ltac:(fun x => change x with (Some (@Int USize (2 ^ 24)))). rewrite <- E24. cbv iota beta. rewrite G1. cbv iota beta. rewrite G2.
  keys. keys.
  head ltac:(fun x => change x with (Some (zi 1024))). cbv iota beta.
  rewrite NR. cbv iota beta.
  change (TextInstr.InstructionsParser_new p) with (Some (F.parser_of Verif.Codec.parser_new)). cbv iota beta.
  head ltac:(fun x => replace x with (option_map F.parser_of (Codec.parser_add_all (debug_assertions p) Codec.parser_new RR.many_words))
    by (rewrite <- PropText.adds_eq; symmetry; exact (TR.ins_loop p RR.many_words _))).
  rewrite E1. cbn [option_map]. cbv iota beta. keys.
  match goal with |- match ?x with _ => _ end = _ => lazymatch x with T.Interpreter_instructions_encrypt_sk _ _ _ _ _ _ ?xa ?xe _ =>
    pose proof (instructions_text A sp garbage garbage_i64 gl_n enc dec next p l sl P6 P8 P9 a24 P11 false 1 (buf0 A) v0 q xa xe
      ltac:(eapply PropText.raw_ins; [exact E1|reflexivity]) S1 S2) as IT end end.
  change (G.log_n A) with log in IT. replace (V.instructions_encrypt log (debug_assertions p) v0 q) with (Some v) in IT by (symmetry; exact E2). cbn [option_map] in IT.
  head ltac:(fun x => lazymatch type of IT with _ = ?rhs => replace x with rhs by (symmetry; exact IT) end). clear IT. cbv iota beta.
  assert (EI : interp false 1 (buf0 A) v = interp false 1 (buf0 A) (at1 v (V.v_pcp v))) by (unfold TextCycle.interp, at_; cbn [V.v_debug V.v_cycle V.v_rom_bits V.v_rom_size V.v_rom V.v_regs V.v_ram_bits V.v_ram_size V.v_ram V.v_pc V.v_pcp]; rewrite VD; reflexivity).
  rewrite EI. clear EI.
  keys. keys.
  unfold for_range. cbn [val lit len]. change (Z.to_nat _) with 12%nat.
  match goal with |- match for_each _ ?f ?s0 with _ => _ end = _ =>
    pose proof (rounds (match Y.instruction_space y 1 a24 with Some _ => true | None => false end) f
      (fun s => exists xa xe b pcp, s = (xa, xe, interp false 1 b (at1 v pcp)) /\ wide_b b) 12 0 s0) as RS;
    assert (BODY : forall i s, (0 <= i < 0 + 12)%nat -> (fun s => exists xa xe b pcp, s = (xa, xe, interp false 1 b (at1 v pcp)) /\ wide_b b) s ->
      if match Y.instruction_space y 1 a24 with Some _ => true | None => false end then exists s', f (Int (Z.of_nat i)) s = Some s' /\ (fun s => exists xa xe b pcp, s = (xa, xe, interp false 1 b (at1 v pcp)) /\ wide_b b) s'
      else f (Int (Z.of_nat i)) s = None)
  end.
  { intros i ss I (xa & xe & b & pcp0 & -> & WB). clear RS.
    destruct (T1 pcp0 (4 * Z.of_nat i) xa xe) as (xa2 & xe2 & ET).
    assert (SHL : shl p (zi i) (lit (t := I32) 2) = Some (@Int USize (4 * Z.of_nat i))).
    { clear - I. do 12 (destruct i as [|i]; [destruct p as [[] []]; reflexivity|]). lia. }
    assert (CST : cast U32 (@Int USize (4 * Z.of_nat i)) = Int (4 * Z.of_nat i)).
    { clear - I. do 12 (destruct i as [|i]; [reflexivity|]). lia. }
    assert (PP : ES.prepared (RT.encrypt_prepared (4 * Z.of_nat i)) (4 * Z.of_nat i)) by (apply PropTests.enc_prep; clear - I; unfold Isa.word; lia).
    destruct (fetch_run a24 (debug_assertions p) q b v (RT.encrypt_prepared (4 * Z.of_nat i)) i FU LG IB WB R32 (proj1 PP) (FC _ i ltac:(clear - I; lia) PP))
      as (w & im & r1 & r2 & rd & o1 & o2 & o3 & Q1 & Q2 & Q3 & Q4 & RUN). cbv zeta in RUN.
    Ltac decode_head p q w Q1 Q2 Q3 Q4 im r1 r2 rd o1 o2 o3 i :=
      head ltac:(fun x => replace x with (Some (F.ins w)) by (symmetry; etransitivity; [exact (F.parser_get_raw_eq p q i)|]; rewrite Q1; reflexivity)); cbv iota beta;
      head ltac:(fun x => replace x with (Some (@Int U32 im)) by (symmetry; etransitivity; [exact (F.get_imm_eq p w)|]; rewrite Q2; reflexivity)); cbv iota beta;
      head ltac:(fun x => replace x with (Some (@Int U32 r2, @Int U32 r1, @Int U32 rd)) by (symmetry; etransitivity; [exact (F.get_registers_eq p w)|]; rewrite Q3; reflexivity)); cbv iota beta;
      head ltac:(fun x => replace x with (Some (F.rd_of o1, F.ram_of o2, F.pc_of o3)) by (symmetry; etransitivity; [exact (F.get_opid_eq p w)|]; rewrite Q4; reflexivity)); cbv iota beta.
    destruct (Y.instruction_space y 1 a24) as [[]|]; cbv iota beta.
    - destruct RUN as (b' & RUN & WB' & DEC).
      exists (xa2, xe2, interp false 1 b' (at1 v (RT.encrypt_prepared (4 * Z.of_nat i)))). split; [|exists xa2, xe2, b', (RT.encrypt_prepared (4 * Z.of_nat i)); auto].
      decode_head p q w Q1 Q2 Q3 Q4 im r1 r2 rd o1 o2 o3 i.
      head ltac:(fun x => replace x with (Some (@Int USize (4 * Z.of_nat i))) by (symmetry; exact SHL)). cbv iota beta. rewrite CST.
      head ltac:(fun x => lazymatch type of ET with _ = ?rhs => replace x with rhs by (symmetry; exact ET) end). clear ET. cbv iota beta.
      head ltac:(fun x => lazymatch type of RUN with _ = ?rhs => replace x with rhs by (symmetry; exact RUN) end). clear RUN. cbv iota beta.
      dec_one DN a24 (b_rs1_addr b'). dec_one DN a24 (b_rs2_addr b'). dec_one DN a24 (b_rd_addr b'). dec_one DN a24 (b_imm b').
      dec_one DN a24 (b_rdu b'). dec_one DN a24 (b_mu b'). dec_one DN a24 (b_pcu b').
      exact (row_tail im r1 r2 rd o1 o2 o3 _ _ _ _ _ _ _ DEC _ _).
    - decode_head p q w Q1 Q2 Q3 Q4 im r1 r2 rd o1 o2 o3 i.
      head ltac:(fun x => replace x with (Some (@Int USize (4 * Z.of_nat i))) by (symmetry; exact SHL)). cbv iota beta. rewrite CST.
      head ltac:(fun x => lazymatch type of ET with _ = ?rhs => replace x with rhs by (symmetry; exact ET) end). clear ET. cbv iota beta.
      head ltac:(fun x => lazymatch type of RUN with _ = ?rhs => replace x with rhs by (symmetry; exact RUN) end). reflexivity. }
  specialize (RS ltac:(do 4 eexists; split; [reflexivity|exact (PE.wide_0 A)]) BODY). clear BODY.
  destruct (Y.instruction_space y 1 a24) as [[]|]; cbv iota in RS.
  - destruct RS as (s' & RS & _).
    head ltac:(fun x => lazymatch type of RS with _ = ?rhs => replace x with rhs by (symmetry; exact RS) end). destruct s' as [[? ?] ?]. reflexivity.
  - specialize (RS ltac:(discriminate)).
    head ltac:(fun x => lazymatch type of RS with _ = ?rhs => replace x with rhs by (symmetry; exact RS) end). reflexivity.
Qed.
End Fetch.
