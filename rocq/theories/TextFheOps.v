(** * The translated homomorphic test that evaluates the operations (helper lemmas) *)
Require Import ZArith List Bool Lia.
From Verif Require Import Rust RustIter RustStr RustLib RustEng RustHost RustTests TextLib TextEng TextEngFacts TextMemFacts TextPrep TextMemClient PropTextMem TextPlanes TextShadow TextCycle TextClient TextIdeal.
Require Verif.Word Verif.Isa Verif.Codec Verif.Glwe Verif.EncMem Verif.MemSpec Verif.EncVM Verif.EncSpec Verif.EncFacts Verif.EncCycle Verif.EncLoad Verif.EncRun Verif.EncEval Verif.Scratch Verif.CycleScratch Verif.DecodeSpec
  Verif.ShadowSpec Verif.PropShadow Verif.PropExact Verif.Asm Verif.RepoTests Verif.RepoRuns Verif.PropRuns Verif.PropText Verif.PropTextEnc Verif.TextHostRun Verif.TextFheTests Verif.TextFheFacts Verif.TextFheRuns.
Module PE := Verif.PropTextEnc.
Module HR := Verif.TextHostRun.
Module FT := Verif.TextFheTests.
Module TF := Verif.TextFheFacts.
Module TR := Verif.TextFheRuns.
Module RT := Verif.RepoTests.
Module RR := Verif.RepoRuns.
Module PR := Verif.PropRuns.
Module ES := Verif.EncSpec.
Import ListNotations.
Open Scope Z_scope.

Section Ops.
Context {GL KL SL Src : Type}.
Variables (log : nat) (sp : space GL KL SL) (garbage : Z -> nat -> list Z) (garbage_i64 : Z -> nat -> int I64)
  (gl_n : GL -> Z) (enc dec : Z -> list Z -> list Z) (next : Src -> Src)
  (sw : word_space GL KL SL) (shuffle : list (nat * list Z) -> list (nat * list Z)).
Notation A := (G.Ideal log).
Notation L := (lib A sp garbage garbage_i64 gl_n enc dec next).
Notation N := (eng A sp garbage garbage_i64 gl_n enc dec next sw (ideal_bdd log) G.decrypt_word Bdd.pack_bits shuffle).
Variables (p : profile) (l : GL) (sl : SL) (kl : KL) (fuel : nat) (pm : layouts GL SL).
Notation interp := (interp A sp garbage garbage_i64 gl_n enc dec next l sl).
Notation client_ok := (PE.client_ok log sp gl_n enc dec l sl pm).
Notation y := (cycle_costs_at sp sw l sl kl).
Notation text_cycles := (PE.text_cycles A sp garbage garbage_i64 gl_n enc dec next sw (ideal_bdd log) G.decrypt_word Bdd.pack_bits shuffle p kl fuel).
Variable (Hs : host L N) (Q : tests L N Hs).
Notation gives := (HR.gives log sp garbage garbage_i64 gl_n enc dec next sw shuffle Hs).
Notation keys_ok := (HR.keys_ok log sp garbage garbage_i64 gl_n enc dec next sw shuffle kl Hs).
Notation tests_ok := (TF.tests_ok log sp garbage garbage_i64 gl_n enc dec next sw shuffle l sl Hs Q).

Ltac head tac := lazymatch goal with |- match ?x with _ => _ end = _ => tac x end.
Ltac keys := lazymatch goal with HK : keys_ok |- match ?x with _ => _ end = _ =>
  let K1 := fresh in let K2 := fresh in let K3 := fresh in let K4 := fresh in let K5 := fresh in
  pose proof HK as (K1 & K2 & K3 & K4 & K5);
  lazymatch x with
  | GLWESecret_fill_ternary_prob _ ?a ?b ?c => specialize (K1 a b c); destruct x as [[? ?]|]; [|destruct (K1 eq_refl)]
  | LWESecret_fill_binary_block _ ?a ?b ?c => specialize (K2 a b c); destruct x as [[? ?]|]; [|destruct (K2 eq_refl)]
  | Secret_prepare _ ?a ?b ?c => specialize (K3 a b c); destruct x as [[]|]; [|destruct (K3 eq_refl)]
  | VMKeys_encrypt_sk _ ?a ?b ?c ?d ?e => specialize (K4 a b c d e); destruct x as [[[? ?] ?]|]; [|destruct (K4 eq_refl)]
  | Keys_prepare _ ?a ?b ?c ?d => rewrite (K5 a b c d)
  end; clear K1 K2 K3 K4 K5; cbv iota beta zeta end.


Notation e1 := (PE.seq_env 1).
Notation at1 v pcp := (at_ v None (V.v_rom v) (V.v_regs v) (V.v_ram v) (V.v_pc v) pcp).

(** a key decrypts the seven words *)
Ltac dec_one DN a w := head ltac:(fun x => replace x with (Some (@Int U32 (G.decrypt_word w)))
      by (symmetry; etransitivity; [exact (decrypt_text A sp garbage garbage_i64 gl_n enc dec next sw (ideal_bdd log) G.decrypt_word Bdd.pack_bits shuffle l a w)|];
      destruct (Sc.need a (w_dec sw l)); [reflexivity|destruct (DN eq_refl)])); cbv iota beta.


(** ** The test of the operations *)
(** only [NONE] leaves the destination as it is *)
Lemma rd_eval_over : forall o threads r0 rs1 rs2 imm pc ram avail, o <> Codec.RNONE ->
  T.RD_UPDATE_eval_enc L N p (F.rd_of o) (Int threads) tt (l, r0) (sl, rs1) (sl, rs2) (sl, imm) (sl, pc) (l, ram) kl avail =
  match Y.rd_space y o threads avail with
  | Some _ => option_map (pair l) (EncEval.rd_eval_enc A o rs1 rs2 imm pc ram)
  | None => None
  end.
Proof.
  intros o threads r0 rs1 rs2 imm pc ram avail NN.
  destruct o; try congruence; cbn -[given Sc.need]; unfold word2; rewrite ?given_need; cbn -[given Sc.need]; needs.
Qed.

(** words drawn one after the other *)
Fixpoint words_drawn (s : Src) (ws : list Z) (s' : Src) : Prop :=
  match ws with
  | [] => s' = s
  | w :: r => exists s1, Source_next_u32 Q s = Some (s1, Int w) /\ words_drawn s1 r s'
  end.

(** the body of the loop *)
Definition op_round (a im x z pc ram : Z) (op : TextInstr.RD_UPDATE) (res : FheUint L) : option (FheUint L) :=
    t66 <- T.RD_UPDATE_eval_enc L N p op (Int 4) tt res (sl, RT.encrypt_prepared x) (sl, RT.encrypt_prepared z) (sl, RT.encrypt_prepared im) (sl, RT.encrypt_prepared pc) (l, G.fhe_of_word ram) kl a ;;
    t68 <- FheUint_decrypt N t66 tt tt a ;;
    t69 <- TextInstr.RD_UPDATE_eval_plain p op (Int im) (Int x) (Int z) (Int pc) (Int ram) ;;
    if eq t68 t69 then Some t66 else None.
Lemma ops_loop : forall a im x z pc ram, Isa.word im -> Isa.word x -> Isa.word z -> Sc.need a (w_dec sw l) <> None ->
  forall ops r, ~ In Codec.RNONE ops -> (forall o, In o ops -> Y.rd_space y o 4 a <> None) ->
  exists r', for_each (map F.rd_of ops) (op_round a im x z pc ram) (l, r) =
  match RT.all_pass (RT.op_check log im x z pc ram) ops with Some _ => Some (l, r') | None => None end.
Proof.
  intros a im x z pc ram Wi Wx Wz DN. induction ops as [|o ops IH]; intros r NN SPC; [exists r; reflexivity|].
  assert (O : o <> Codec.RNONE) by (intros ->; apply NN; left; reflexivity).
  assert (NN' : ~ In Codec.RNONE ops) by (intro; apply NN; right; assumption).
  assert (S' : forall o', In o' ops -> Y.rd_space y o' 4 a <> None) by (intros; apply SPC; right; assumption).
  specialize (SPC o (or_introl eq_refl)).
  cbn [map for_each RT.all_pass]. unfold op_round at 1. rewrite (rd_eval_over o 4 r _ _ _ _ _ a O).
  destruct (Y.rd_space y o 4 a); [|congruence]. unfold RT.op_check at 1.
  change (Glwe.Ideal log) with A.
  destruct (EncEval.rd_eval_enc A o _ _ _ _ _) as [r2|]; cbn [option_map]; [|exists r; reflexivity].
  rewrite (decrypt_text A sp garbage garbage_i64 gl_n enc dec next sw (ideal_bdd log) G.decrypt_word Bdd.pack_bits shuffle l a r2).
  destruct (Sc.need a (w_dec sw l)); [|congruence]. cbv iota beta. rewrite F.rd_eval_eq by assumption.
  destruct (EvalPlain.rd_eval o im x z pc ram) as [want|]; cbn [option_map]; [|exists r; reflexivity].
  unfold eq at 1. cbn [val]. change G.decrypt_word with Glwe.decrypt_word.
  destruct (Glwe.decrypt_word r2 =? want); [|exists r; reflexivity]. exact (IH r2 NN' S').
Qed.

Lemma ops_all : forall a im x z pc ram, Isa.word im -> Isa.word x -> Isa.word z -> Sc.need a (w_dec sw l) <> None ->
  (forall o, In o EvalPlain.RD_RV32I -> Y.rd_space y o 4 a <> None) ->
  match for_each TextInstr.instructions_RD_UPDATE_RV32I_OP_LIST (op_round a im x z pc ram) (l, G.a_fzero A) with Some _ => Some tt | None => None end =
  RT.test_one_op log im x z pc ram.
Proof.
  intros a im x z pc ram Wi Wx Wz DN SPC.
  destruct (ops_loop a im x z pc ram Wi Wx Wz DN (tl EvalPlain.RD_RV32I) (G.a_fzero A)) as (r' & LP).
  { clear. cbn. intros H. repeat destruct H as [H|H]; try discriminate H; exact H. }
  { intros o I. apply SPC. right. exact I. }
  change TextInstr.instructions_RD_UPDATE_RV32I_OP_LIST with (F.rd_of Codec.RNONE :: map F.rd_of (tl EvalPlain.RD_RV32I)).
  unfold RT.test_one_op. change EvalPlain.RD_RV32I with (Codec.RNONE :: tl EvalPlain.RD_RV32I) at 2. cbn [for_each RT.all_pass].
  assert (N1 : op_round a im x z pc ram (F.rd_of Codec.RNONE) (l, G.a_fzero A) = Some (l, G.a_fzero A)).
  { unfold op_round. change (T.RD_UPDATE_eval_enc _ _ _ (F.rd_of Codec.RNONE) _ _ ?r _ _ _ _ _ _ _) with (Some r). cbv iota beta.
    rewrite (decrypt_text A sp garbage garbage_i64 gl_n enc dec next sw (ideal_bdd log) G.decrypt_word Bdd.pack_bits shuffle l a (G.a_fzero A)).
    destruct (Sc.need a (w_dec sw l)); [|congruence]. reflexivity. }
  assert (N2 : RT.op_check log im x z pc ram Codec.RNONE = Some tt) by reflexivity.
  rewrite N1, N2, LP. destruct (RT.all_pass _ _) as [[]|]; reflexivity.
Qed.

Ltac known x := let f := eval pattern p in x in lazymatch f with ?g _ =>
  let v := eval vm_compute in (g (Build_profile true true)) in
  let E := fresh in assert (E : x = v) by (clear; first [reflexivity|destruct p as [[] []]; vm_compute; reflexivity]); rewrite E; clear E end; cbv iota beta.

(** the interpreter before anything is encrypted: its ROM is zero *)
Lemma fresh_fetch : forall avail v0, V.evm_new A false 1024 1024 = Some v0 -> (7 < fuel)%nat -> (log <= 62)%nat -> PE.in_bytes sp sw l sl kl log 10 10 1 ->
  let t := T.Interpreter_read_and_prepare_instruction_components L N p fuel (interp false 1 (buf0 A) v0) (zi 1) tt kl (Some tt) avail in
  match Y.instruction_space y 1 avail with
  | Some _ => exists b', t = Some (interp false 1 b' v0)
  | None => t = None
  end.
Proof.
  intros avail v0 E0 FU LG (SZ & D0 & FS & FZ & FB & FW & FR & FV & RB & RO). cbv zeta.
  destruct (MemClient.alloc_shaped log 1024 ltac:(lia)) as (m0 & M0 & H0).
  unfold V.evm_new in E0. replace (M.mem_alloc A 32 1024) with (Some m0) in E0 by (symmetry; exact M0).
  destruct (M.mem_alloc A 32 32) as [m2|]; [|discriminate]. change (Word.bit_len_pred (Z.of_nat 1024)) with (Some 10%nat) in E0.
  cbv iota beta in E0.
  assert (E1 : V.v_rom v0 = V.ERoms m0 m0 m0 m0 m0 m0 m0) by (injection E0 as <-; reflexivity).
  assert (E2 : V.v_pcp v0 = repeat false 32) by (injection E0 as <-; reflexivity).
  assert (E3 : V.v_debug v0 = None) by (injection E0 as <-; reflexivity).
  clear E0.
  assert (P32 : planes32 m0) by (apply (holds_planes log m0 _ H0); rewrite repeat_length; lia).
  pose proof (fetch_text A sp garbage garbage_i64 gl_n enc dec next sw (ideal_bdd log) G.decrypt_word Bdd.pack_bits shuffle p l sl kl fuel FU e1 avail LG D0 FS FB
    (fun _ => PE.seq_env_ok garbage garbage_i64 gl_n enc dec l 1 ltac:(discriminate)) false v0 (Some tt) (buf0 A) None (V.v_rom v0) (V.v_regs v0) (V.v_ram v0) (V.v_pc v0) (V.v_pcp v0)
    (PE.wide_0 A) ltac:(rewrite E1; repeat (split; [exact P32|]); exact P32) Logic.I ltac:(rewrite E2; reflexivity)) as M.
  unfold meets in M. change (check sp sw l sl kl avail (Some tt) None true) with (Some tt) in M. change (V.n_threads e1) with 1%nat in M. change (Z.of_nat 1) with 1 in M.
  assert (EI : forall b, interp false 1 b v0 = interp false 1 b (at1 v0 (V.v_pcp v0))).
  { intro b. unfold TextCycle.interp, at_; cbn [V.v_debug V.v_cycle V.v_rom_bits V.v_rom_size V.v_rom V.v_regs V.v_ram_bits V.v_ram_size V.v_ram V.v_pc V.v_pcp]; rewrite E3; reflexivity. }
  rewrite EI.
  destruct (Y.instruction_space y 1 avail); [|exact M].
  match type of M with match ?x with _ => _ end => replace x with (V.read_components A (Some EncVM.secret_key) e1 None (V.v_rom v0) (V.v_pcp v0)) in M by reflexivity end.
  set (z := repeat 0 1024) in *.
  destruct (EncCycle.components_ok log (Some EncVM.secret_key) true e1 (EncCycle.key_secret log) (PE.seq_env_ok garbage garbage_i64 gl_n enc dec l 1 ltac:(discriminate))
    (V.v_rom v0) (DM.Build_roms z z z z z z z) (V.v_pcp v0) 0 10 1024) as (ps & EQ & _).
  { rewrite E1. repeat (split; [exact H0|]). exact H0. }
  { unfold z. repeat split; cbn [DM.imm_rom]; apply repeat_length. }
  { reflexivity. }
  { lia. }
  { rewrite E2. split; [reflexivity|]. reflexivity. }
  { cbn; lia. }
  specialize (EQ None).
  replace (V.read_components A (Some EncVM.secret_key) e1 None (V.v_rom v0) (V.v_pcp v0)) with (Some (V.v_rom v0, @None DM.dvm, ps)) in M by (symmetry; exact EQ).
  destruct M as (r & ET & b' & -> & _). exists b'. rewrite EI. exact ET.
Qed.

Lemma one_op_text : forall a24, a24 = 2 ^ 24 -> client_ok a24 -> gives a24 -> keys_ok -> CryptographicParameters_new Hs = pm ->
  tests_ok a24 -> (7 < fuel)%nat -> (log <= 62)%nat ->
  PE.in_bytes sp sw l sl kl log 10 10 1 -> Sc.need a24 (w_dec sw l) <> None ->
  Y.instruction_space y 1 a24 <> None -> (forall o, In o EvalPlain.RD_RV32I -> Y.rd_space y o 4 a24 <> None) ->
  exists im x z pc ram s', words_drawn (Source_new Hs (filled (@lit U8 0) (lit 32))) [im; x; z; pc; ram] s' /\ Forall Isa.word [im; x; z; pc; ram] /\
  FT.interpreters_test_interpreter_init_one_op L N Hs Q p fuel = RT.test_one_op log im x z pc ram.
Proof.
  intros a24 E24 CO (s24 & G1 & G2) HK PM (T1 & T2 & T3) FU LG IB DN ISP RSP.
  set (s0 := Source_new Hs (filled (@lit U8 0) (lit 32))).
  destruct (T3 s0) as (s1 & im & X1 & W1), (T3 s1) as (s2 & x & X2 & W2), (T3 s2) as (s3 & z & X3 & W3), (T3 s3) as (s4 & pc & X4 & W4), (T3 s4) as (s5 & ram & X5 & W5).
  exists im, x, z, pc, ram, s5. split; [cbn [words_drawn]; exists s1; split; [exact X1|]; exists s2; split; [exact X2|]; exists s3; split; [exact X3|]; exists s4; split; [exact X4|]; exists s5; split; [exact X5|reflexivity]|].
  split; [repeat (apply Forall_cons || apply Forall_nil); assumption|].
  destruct (V.evm_new A false 1024 1024) as [v0|] eqn:E0.
  2: { exfalso. clear - E0. unfold V.evm_new in E0. destruct (MemClient.alloc_shaped log 1024 ltac:(lia)) as (m0 & M0 & _). destruct (MemClient.alloc_shaped log 32 ltac:(lia)) as (m1 & M1 & _).
    replace (M.mem_alloc A 32 1024) with (Some m0) in E0 by (symmetry; exact M0). replace (M.mem_alloc A 32 32) with (Some m1) in E0 by (symmetry; exact M1).
    change (Word.bit_len_pred (Z.of_nat 1024)) with (Some 10%nat) in E0. discriminate E0. }
  pose proof (TR.new_run log sp garbage garbage_i64 gl_n enc dec next sw shuffle p l sl pm false a24 1024 1024 CO ltac:(lia) ltac:(lia) ltac:(lia) ltac:(lia)) as NR. cbv iota in NR.
  rewrite E0 in NR. cbn [option_map] in NR.
  pose proof (fresh_fetch a24 v0 E0 FU LG IB) as RUN. cbv zeta in RUN. destruct (Y.instruction_space y 1 a24); [clear ISP|congruence]. destruct RUN as (b' & RUN).
  pose proof CO as (P1 & P2 & P3' & P4 & P5 & P6 & P7 & P8 & P9 & P10 & P11 & P12).
  unfold FT.interpreters_test_interpreter_init_one_op. rewrite PM. cbv zeta.
  head ltac:(fun x => known x). head ltac:(fun x => known x).
  head ltac:(fun x => lazymatch x with ScratchOwned_alloc _ ?n => change n with (@Int USize (2 ^ 24)) end). rewrite <- E24. rewrite G1. cbv iota beta. rewrite G2.
  head ltac:(fun x => change x with (Some (zi 1024))). cbv iota beta.
  rewrite NR. cbv iota beta.
  keys. keys. keys.
  head ltac:(fun x => lazymatch type of X1 with _ = ?rhs => replace x with rhs by (symmetry; exact X1) end). cbv iota beta.
  rewrite X2. cbv iota beta. rewrite X3. cbv iota beta. rewrite X4. cbv iota beta. rewrite X5. cbv iota beta.
  keys. keys.
  head ltac:(fun x => lazymatch type of RUN with _ = ?rhs => replace x with rhs by (symmetry; exact RUN) end). clear RUN. cbv iota beta.
  Ltac enc_p T1 q0 v := match goal with |- match ?x with _ => _ end = _ => lazymatch x with FheUintPrepared_encrypt_sk _ _ _ _ _ ?xa ?xe _ =>
    let xa2 := fresh in let xe2 := fresh in let ET := fresh in destruct (T1 q0 v xa xe) as (xa2 & xe2 & ET);
    lazymatch type of ET with _ = ?rhs => replace x with rhs by (symmetry; exact ET) end; clear ET; cbv iota beta end end.
  enc_p T1 (b_rs1_val_p b') x. enc_p T1 (b_rs2_val_p b') z. enc_p T1 (b_imm_p b') im. enc_p T1 (V.v_pcp v0) pc.
  match goal with |- match ?x with _ => _ end = _ => lazymatch x with FheUint_encrypt_sk _ _ _ _ _ ?xa ?xe _ =>
    destruct (T2 (b_ram_val b') ram xa xe) as (xa2 & xe2 & ET) end end.
  head ltac:(fun x => lazymatch type of ET with _ = ?rhs => replace x with rhs by (symmetry; exact ET) end). clear ET. cbv iota beta.
  etransitivity; [|exact (ops_all a24 im x z pc ram W1 W2 W3 DN RSP)].
  match goal with |- match for_each _ _ ?r with _ => _ end = match for_each _ _ ?r2 with _ => _ end => replace r with r2 end.
  2: { symmetry. unfold FheUint_alloc_from_infos, CryptographicParameters_fhe_uint_infos. cbn. rewrite P3'. reflexivity. }
  reflexivity.
Qed.
End Ops.
