(** * Properties C94-C95: the model of the codec, of the plain evaluation and of
    the plaintext machine is the text of the repository

    [TextInstr] and [TextDebug] are the Rust functions themselves, translated
    token by token by tools/gen_text.py; their operators are those of Rust.v.
    [ins w] is the [Instruction] with the word [w]; [type_of], [ram_of],
    [pc_of], [rd_of], [parser_of] and [dvm_of] (TextFacts.v) rename the
    constructors and fields of the model to those of the text.  [p] is the
    build profile: overflow checks and debug assertions are two separate
    flags, and no theorem depends on the first. *)
Require Import ZArith List Bool Lia.
From Verif Require Import Rust TextFacts.
Require Verif.Isa Verif.Word Verif.Codec Verif.EvalPlain Verif.DebugVM Verif.TextInstr Verif.TextDebug.
Require Verif.DecodeSpec Verif.DebugSpec Verif.DebugLoad Verif.DebugStep Verif.RunSpec Verif.RunFacts
  Verif.TestRunSpec Verif.PropCodec Verif.PropDebug Verif.PropTest Verif.EncLoad.
Import ListNotations.
Open Scope Z_scope.
Module C := Verif.Codec.
Module E := Verif.EvalPlain.

(** C94.  Every accessor of an instruction word, for every word and value. *)
Theorem C94_fields :
  forall (p : profile) (w v : Z),
    let dbg := debug_assertions p in
    T.Instruction_get_opcode p (ins w) = Some (Int (C.get_opcode w)) /\
    T.Instruction_set_opcode p (ins w) (Int v) = Some (ins (C.set_opcode w v)) /\
    T.Instruction_get_type p (ins w) = option_map type_of (C.get_type w) /\
    T.Instruction_get_funct3 p (ins w) = option_map Int (C.get_funct3 dbg w) /\
    T.Instruction_set_funct3 p (ins w) (Int v) = option_map ins (C.set_funct3 dbg w v) /\
    T.Instruction_get_funct7 p (ins w) = option_map Int (C.get_funct7 dbg w) /\
    T.Instruction_set_funct7 p (ins w) (Int v) = option_map ins (C.set_funct7 dbg w v) /\
    T.Instruction_get_rs1 p (ins w) = option_map Int (C.get_rs1 dbg w) /\
    T.Instruction_set_rs1 p (ins w) (Int v) = option_map ins (C.set_rs1 dbg w v) /\
    T.Instruction_get_rs2 p (ins w) = option_map Int (C.get_rs2 dbg w) /\
    T.Instruction_set_rs2 p (ins w) (Int v) = option_map ins (C.set_rs2 dbg w v) /\
    T.Instruction_get_rd p (ins w) = option_map Int (C.get_rd dbg w) /\
    T.Instruction_set_rd p (ins w) (Int v) = option_map ins (C.set_rd dbg w v) /\
    T.Instruction_get_shamt p (ins w) = option_map Int (C.get_shamt dbg w) /\
    T.Instruction_set_shamt p (ins w) (Int v) = option_map ins (C.set_shamt dbg w v).
Proof.
  intros. unfold dbg. repeat apply conj.
  - apply get_opcode_eq.
  - apply set_opcode_eq.
  - apply get_type_eq.
  - apply get_funct3_eq.
  - apply set_funct3_eq.
  - apply get_funct7_eq.
  - apply set_funct7_eq.
  - apply get_rs1_eq.
  - apply set_rs1_eq.
  - apply get_rs2_eq.
  - apply set_rs2_eq.
  - apply get_rd_eq.
  - apply set_rd_eq.
  - apply get_shamt_eq.
  - apply set_shamt_eq.
Qed.
Print Assumptions C94_fields.

(** The immediates of the five formats, and what is decoded from a word. *)
Theorem C94_immediates :
  forall (p : profile) (w v : Z),
    (T.i_type_get_immediate p (Int w) = Some (Int (C.i_get w)) /\
     T.s_type_get_immediate p (Int w) = Some (Int (C.s_get w)) /\
     T.b_type_get_immediate p (Int w) = Some (Int (C.b_get w)) /\
     T.u_type_get_immediate p (Int w) = Some (Int (C.u_get w)) /\
     T.j_type_get_immediate p (Int w) = Some (Int (C.j_get w))) /\
    (T.i_type_set_immediate p (ins w) (Int v) = Some (ins (C.i_set w v)) /\
     T.s_type_set_immediate p (ins w) (Int v) = Some (ins (C.s_set w v)) /\
     T.b_type_set_immediate p (ins w) (Int v) = Some (ins (C.b_set w v)) /\
     T.u_type_set_immediate p (ins w) (Int v) = Some (ins (C.u_set w v)) /\
     T.j_type_set_immediate p (ins w) (Int v) = Some (ins (C.j_set w v))) /\
    T.Instruction_get_imm p (ins w) = option_map Int (C.get_imm (debug_assertions p) w) /\
    T.Instruction_set_imm p (ins w) (Int v) = option_map ins (C.set_imm (debug_assertions p) w v).
Proof.
  intros. split; [ | split; [ | split ] ].
  - repeat apply conj; [ apply i_get_eq | apply s_get_eq | apply b_get_eq | apply u_get_eq | apply j_get_eq ].
  - repeat apply conj; [ apply i_set_eq | apply s_set_eq | apply b_set_eq | apply u_set_eq | apply j_set_eq ].
  - apply get_imm_eq.
  - apply set_imm_eq.
Qed.
Print Assumptions C94_immediates.

Theorem C94_decode :
  forall (p : profile) (w : Z),
    T.Instruction_get_registers p (ins w) = option_map regs_of (C.get_registers (debug_assertions p) w) /\
    T.Instruction_get_opid p (ins w) = option_map opid_of (C.get_opid (debug_assertions p) w).
Proof. intros. split; [ apply get_registers_eq | apply get_opid_eq ]. Qed.
Print Assumptions C94_decode.

(** The parser: a sequence of [add]s, and every lookup. *)
Fixpoint adds (p : profile) (q : T.InstructionsParser) (ws : list T.Instruction) : option T.InstructionsParser :=
  match ws with
  | [] => Some q
  | w :: r => q' <- T.InstructionsParser_add p q w ;; adds p q' r
  end.
Lemma adds_eq : forall p ws q,
  adds p (parser_of q) (map ins ws) = option_map parser_of (C.parser_add_all (debug_assertions p) q ws).
Proof.
  intros p ws. induction ws as [ | w ws IH ]; intro q; [ reflexivity | ].
  cbn [map adds C.parser_add_all]. rewrite parser_add_eq.
  destruct (C.parser_add (debug_assertions p) q w); [ apply IH | reflexivity ].
Qed.
Theorem C94_parser :
  forall (p : profile) (ws : list Z) (q : C.parser) (i : nat),
    T.InstructionsParser_new p = Some (parser_of C.parser_new) /\
    adds p (parser_of q) (map ins ws) = option_map parser_of (C.parser_add_all (debug_assertions p) q ws) /\
    T.InstructionsParser_get p (parser_of q) (Int (Z.of_nat i)) = option_map seven (C.parser_get q i) /\
    T.InstructionsParser_get_raw p (parser_of q) (Int (Z.of_nat i)) = option_map ins (C.parser_get_raw q i).
Proof.
  intros. split; [ reflexivity | ]. split; [ apply adds_eq | ].
  split; [ apply parser_get_eq | apply parser_get_raw_eq ].
Qed.
Print Assumptions C94_parser.

(** The plain evaluation of all operations, on all words; the identifiers and
    the lists of operations. *)
Theorem C94_eval :
  forall (p : profile) (imm x y pc ram off : Z),
    Isa.word imm -> Isa.word x -> Isa.word y ->
    (forall o, T.RD_UPDATE_eval_plain p (rd_of o) (Int imm) (Int x) (Int y) (Int pc) (Int ram)
               = option_map Int (E.rd_eval o imm x y pc ram)) /\
    (forall o, T.RAM_UPDATE_eval_plain p (ram_of o) (Int y) (Int ram) (Int off)
               = Some (Int (E.ram_eval o y ram off))) /\
    (forall o, T.PC_UPDATE_eval_plain p (pc_of o) (Int imm) (Int x) (Int y) (Int pc)
               = Some (Int (E.pc_eval o imm x y pc))) /\
    (forall b, 0 < b < 32 -> T.instructions_sext p (Int x) (Int b) = Some (Int (E.sext x b))).
Proof.
  intros p imm x y pc ram off Hi Hx Hy. repeat apply conj.
  - intro o. apply rd_eval_eq; assumption.
  - intro o. apply ram_eval_eq.
  - intro o. apply pc_eval_eq; assumption.
  - intros b Hb. apply sext_eq. exact Hb.
Qed.
Print Assumptions C94_eval.
Theorem C94_ids :
  (forall p o, T.RD_UPDATE_id p (rd_of o) = Some (Int (C.rd_id o))) /\
  (forall p o, T.RAM_UPDATE_id p (ram_of o) = Some (Int (C.ram_id o))) /\
  (forall p o, T.PC_UPDATE_id p (pc_of o) = Some (Int (C.pc_id o))) /\
  T.instructions_RD_UPDATE_RV32I_OP_LIST = map rd_of E.RD_RV32I /\
  T.instructions_RD_UPDATE_RV32M_OP_LIST = map rd_of E.RD_RV32M /\
  T.instructions_RAM_UPDATE_OP_LIST = map ram_of E.RAM_LIST /\
  T.instructions_PC_UPDATE_OP_LIST = map pc_of E.PC_LIST.
Proof.
  repeat apply conj; try reflexivity; [ apply rd_id_eq | apply ram_id_eq | apply pc_id_eq ].
Qed.
Print Assumptions C94_ids.
(** no operation of the text is left out *)
Theorem C94_all_operations :
  (forall o, exists o', o = rd_of o') /\ (forall o, exists o', o = ram_of o') /\
  (forall o, exists o', o = pc_of o') /\ (forall t, exists t', t = type_of t').
Proof.
  repeat apply conj; intros [];
    match goal with |- exists o, ?c = ?f o =>
      first [ exists C.RNONE; reflexivity | exists C.RLUI; reflexivity | exists C.RAUIPC; reflexivity
            | exists C.RADDI; reflexivity | exists C.RSLTI; reflexivity | exists C.RSLTIU; reflexivity
            | exists C.RXORI; reflexivity | exists C.RORI; reflexivity | exists C.RANDI; reflexivity
            | exists C.RSLLI; reflexivity | exists C.RSRLI; reflexivity | exists C.RSRAI; reflexivity
            | exists C.RADD; reflexivity | exists C.RSUB; reflexivity | exists C.RSLL; reflexivity
            | exists C.RSLT; reflexivity | exists C.RSLTU; reflexivity | exists C.RXOR; reflexivity
            | exists C.RSRL; reflexivity | exists C.RSRA; reflexivity | exists C.ROR; reflexivity
            | exists C.RAND; reflexivity | exists C.RLB; reflexivity | exists C.RLBU; reflexivity
            | exists C.RLH; reflexivity | exists C.RLHU; reflexivity | exists C.RLW; reflexivity
            | exists C.RJAL; reflexivity | exists C.RJALR; reflexivity | exists C.RMUL; reflexivity
            | exists C.RMULH; reflexivity | exists C.RMULHSU; reflexivity | exists C.RMULHU; reflexivity
            | exists C.RDIV; reflexivity | exists C.RDIVU; reflexivity | exists C.RREM; reflexivity
            | exists C.RREMU; reflexivity
            | exists C.MNONE; reflexivity | exists C.MSB; reflexivity | exists C.MSH; reflexivity
            | exists C.MSW; reflexivity
            | exists C.PNONE; reflexivity | exists C.PJAL; reflexivity | exists C.PJALR; reflexivity
            | exists C.PBEQ; reflexivity | exists C.PBNE; reflexivity | exists C.PBLT; reflexivity
            | exists C.PBGE; reflexivity | exists C.PBLTU; reflexivity | exists C.PBGEU; reflexivity
            | exists C.TNONE; reflexivity | exists C.TR; reflexivity | exists C.TI; reflexivity
            | exists C.TS; reflexivity | exists C.TB; reflexivity | exists C.TU; reflexivity
            | exists C.TJ; reflexivity ] end.
Qed.
Print Assumptions C94_all_operations.
(* a debug build refuses the funct7 of a store; a release build reads it *)
Example C94_case :
  T.Instruction_get_funct7 {| overflow_checks := false; debug_assertions := true |} (ins 0xFEB52E23) = None /\
  T.Instruction_get_funct7 {| overflow_checks := true; debug_assertions := false |} (ins 0xFEB52E23) = Some (Int 127) /\
  T.Instruction_get_opid {| overflow_checks := true; debug_assertions := true |} (ins 0xFEB52E23)
    = Some (T.RD_UPDATE_NONE, T.RAM_UPDATE_SW, T.PC_UPDATE_NONE) /\
  T.Instruction_get_imm {| overflow_checks := true; debug_assertions := true |} (ins 0xFEB52E23) = Some (Int 0xFFFFFFFC).
Proof. vm_compute. auto. Qed.
(* both sides panic on a remainder by zero *)
Example C94_case2 :
  T.RD_UPDATE_eval_plain {| overflow_checks := false; debug_assertions := false |}
    T.RD_UPDATE_REM (Int 0) (Int 7) (Int 0) (Int 0) (Int 0) = None /\ E.rd_eval C.RREM 0 7 0 0 0 = None.
Proof. vm_compute. auto. Qed.

(** What this says of the text itself, without the model: the decoder follows
    the ISA (C03). *)
Theorem C94_text_follows_isa :
  forall (p : profile) (i : Isa.instr),
    Isa.legal i ->
    T.Instruction_get_imm p (ins (Isa.encode i)) = Some (Int (DecodeSpec.imm_of i)) /\
    T.Instruction_get_registers p (ins (Isa.encode i)) = Some (regs_of (DecodeSpec.regs_of i)) /\
    T.Instruction_get_opid p (ins (Isa.encode i)) = Some (opid_of (DecodeSpec.ops_of i)).
Proof.
  intros p i L. destruct (PropCodec.C03_decoder_follows_isa (debug_assertions p) i L) as (_ & D).
  destruct D as (D1 & D2 & D3).
  rewrite get_imm_eq, get_registers_eq, get_opid_eq, D1, D2, D3. repeat split; reflexivity.
Qed.
Print Assumptions C94_text_follows_isa.

(** C95.  The plaintext machine: each of its functions on every state whose
    fields hold words, and whole runs from the start. *)
Theorem C95_steps :
  forall (p : profile) (s : M.dvm),
    (forall a b, D.InterpreterDebug_new p (Int (Z.of_nat a)) (Int (Z.of_nat b)) = Some (dvm_of (M.dvm_new a b))) /\
    (forall d, D.InterpreterDebug_set_ram p (dvm_of s) (map Int d) = option_map dvm_of (M.set_ram s d)) /\
    D.InterpreterDebug_read_instructions p (dvm_of s) = option_map dvm_of (M.read_instructions s) /\
    D.InterpreterDebug_read_registers p (dvm_of s) = option_map dvm_of (M.read_registers s) /\
    (0 <= M.ram_size s ->
     D.InterpreterDebug_read_ram p (dvm_of s) = option_map dvm_of (M.read_ram s)) /\
    (forall ops, Isa.word (M.imm (M.lat s)) -> Isa.word (M.rs1_val (M.lat s)) -> Isa.word (M.rs2_val (M.lat s)) ->
     D.InterpreterDebug_update_registers p (dvm_of s) (map rd_of ops) = option_map dvm_of (M.update_registers ops s)) /\
    (0 <= M.ram_size s -> 0 <= M.ram_addr (M.lat s) ->
     D.InterpreterDebug_update_ram p (dvm_of s) = option_map dvm_of (M.update_ram s)) /\
    (Isa.word (M.rs1_val (M.lat s)) -> Isa.word (M.rs2_val (M.lat s)) ->
     D.InterpreterDebug_update_pc p (dvm_of s) = option_map dvm_of (M.update_pc s)).
Proof.
  intros p s. repeat apply conj.
  - apply dvm_new_eq.
  - apply set_ram_eq.
  - apply read_instructions_eq.
  - apply read_registers_eq.
  - apply read_ram_eq.
  - intro ops. apply update_registers_eq.
  - apply update_ram_eq.
  - apply update_pc_eq.
Qed.
Print Assumptions C95_steps.
(** loading, the loop over the instructions included *)
Theorem C95_load :
  forall (p : profile) (s : M.dvm) (q : C.parser),
    rom_len (length (M.imm_rom (M.drom s))) (M.drom s) -> length (C.p_raw q) = length (C.p_ins q) ->
    D.InterpreterDebug_set_instructions p (dvm_of s) (parser_of q)
    = option_map dvm_of (M.set_instructions (debug_assertions p) s q).
Proof. exact set_instructions_eq. Qed.
Print Assumptions C95_load.

(** the text of a run: parse the words, create the machine, load, then [n]
    times the six functions in the order of the stages (interpreter.rs:553-608) *)
Definition text_boot (p : profile) (prog ram : list Z) : option D.InterpreterDebug :=
  q0 <- T.InstructionsParser_new p ;;
  q <- adds p q0 (map ins prog) ;;
  s <- D.InterpreterDebug_new p (Int (Z.of_nat (length prog))) (Int (Z.of_nat (length ram))) ;;
  s <- D.InterpreterDebug_set_instructions p s q ;;
  D.InterpreterDebug_set_ram p s (map Int ram).
Definition text_cycle (p : profile) (s : D.InterpreterDebug) : option D.InterpreterDebug :=
  s <- D.InterpreterDebug_read_instructions p s ;;
  s <- D.InterpreterDebug_read_registers p s ;;
  s <- D.InterpreterDebug_read_ram p s ;;
  s <- D.InterpreterDebug_update_registers p s T.instructions_RD_UPDATE_RV32I_OP_LIST ;;
  s <- D.InterpreterDebug_update_ram p s ;;
  D.InterpreterDebug_update_pc p s.
Fixpoint text_cycles (p : profile) (n : nat) (s : D.InterpreterDebug) : option D.InterpreterDebug :=
  match n with O => Some s | S m => s' <- text_cycle p s ;; text_cycles p m s' end.

Lemma text_cycles_of : forall p n s, text_cycles p n s = cycles_of p (map rd_of E.RD_RV32I) n s.
Proof.
  intros p n. induction n as [ | n IH ]; intro s; [ reflexivity | ].
  cbn [text_cycles cycles_of]. change (text_cycle p s) with (cycle_of p (map rd_of E.RD_RV32I) s).
  destruct (cycle_of p (map rd_of E.RD_RV32I) s); [ apply IH | reflexivity ].
Qed.
Lemma raw_ins : forall dbg ws q q', C.parser_add_all dbg q ws = Some q' -> length (C.p_raw q) = length (C.p_ins q) ->
  length (C.p_raw q') = length (C.p_ins q').
Proof.
  intros dbg ws. induction ws as [ | w ws IH ]; intros q q' H L; cbn [C.parser_add_all] in H.
  - injection H as <-. exact L.
  - destruct (C.parser_add dbg q w) as [ q1 | ] eqn:A; [ | discriminate H ].
    apply (IH q1 q' H). unfold C.parser_add in A.
    destruct (C.get_registers dbg w) as [ [[? ?] ?] | ]; [ | discriminate A ].
    destruct (C.get_opid dbg w) as [ [[? ?] ?] | ]; [ | discriminate A ].
    destruct (C.get_imm dbg w); [ | discriminate A ]. injection A as <-.
    cbn [C.p_raw C.p_ins]. rewrite !app_length, L. reflexivity.
Qed.
Theorem C95_boot :
  forall (p : profile) (prog ram : list Z),
    text_boot p prog ram = option_map dvm_of (DebugLoad.boot (debug_assertions p) prog ram).
Proof.
  intros. unfold text_boot, DebugLoad.boot.
  change (T.InstructionsParser_new p) with (Some (parser_of C.parser_new)). cbv iota beta.
  rewrite adds_eq.
  destruct (C.parser_add_all (debug_assertions p) C.parser_new prog) as [ q | ] eqn:A; [ cbn [option_map] | reflexivity ].
  rewrite dvm_new_eq, set_instructions_eq.
  - destruct (M.set_instructions (debug_assertions p) _ q) as [ s | ]; [ cbn [option_map] | reflexivity ].
    apply set_ram_eq.
  - unfold rom_len, M.dvm_new. cbn. rewrite !repeat_length. repeat split.
  - eapply raw_ins; [ exact A | reflexivity ].
Qed.
Print Assumptions C95_boot.

Theorem C95_runs :
  forall (p : profile) (prog ram : list Z) (n : nat),
    Forall Isa.word prog -> Forall Isa.word ram ->
    (s <- text_boot p prog ram ;; text_cycles p n s)
    = option_map dvm_of
        (s <- DebugLoad.boot (debug_assertions p) prog ram ;; M.dcycles E.RD_RV32I n s).
Proof.
  intros p prog ram n FP FR. rewrite C95_boot.
  destruct (DebugLoad.boot (debug_assertions p) prog ram) as [ s | ] eqn:B; [ cbn [option_map] | reflexivity ].
  rewrite text_cycles_of. apply cycles_eq.
  unfold DebugLoad.boot in B.
  destruct (C.parser_add_all (debug_assertions p) C.parser_new prog) as [ q | ] eqn:A; [ | discriminate B ].
  destruct (M.set_instructions (debug_assertions p) _ q) as [ s1 | ] eqn:S; [ | discriminate B ].
  unfold M.set_ram in B. destruct (Nat.eqb _ _); [ | discriminate B ]. injection B as <-.
  unfold M.set_instructions in S.
  destruct (Nat.eqb _ _); [ | discriminate S ]. destruct (Nat.leb _ _); [ | discriminate S ].
  destruct (M.fill (debug_assertions p) _) as [ r | ] eqn:F; [ | discriminate S ]. injection S as <-.
  unfold typed. cbn.
  split; [ unfold Word.u32; apply Z.mod_pos_bound; lia | ].
  split; [ unfold Isa.word; lia | ]. split.
  - eapply EncLoad.fill_rows; [ | exact F ].
    assert (R : C.p_raw q = prog).
    { destruct (DecodeAccept.parser_add_all_entries _ _ _ _ A) as (? & ? & _ & _ & _ & _ & _ & R). exact R. }
    rewrite R. apply Forall_forall. intros w I. apply (proj1 (Forall_forall _ _) FP).
    rewrite <- (firstn_skipn (length (C.p_ins q)) prog). apply in_or_app. left. exact I.
  - split; [ | exact FR ].
    repeat (constructor; [ unfold Isa.word; lia | ]). constructor.
Qed.
Print Assumptions C95_runs.

(** What this says of the text itself: on supported programs [n] rounds of the
    six functions are [n] steps of the ISA (C47). *)
Theorem C95_text_runs_are_isa :
  forall (p : profile) (base : Z) (prog ram : list Z) (n : nat),
    Forall Isa.word prog -> Forall (DecodeSpec.accepted (debug_assertions p)) prog -> Forall Isa.word ram ->
    (0 < length ram)%nat -> Z.of_nat (length ram) < 2 ^ 32 ->
    DebugSpec.base_ok base (Z.of_nat (length ram)) ->
    RunSpec.along (DebugSpec.dsupported base (Z.of_nat (length ram))) prog n (DebugLoad.start base ram) ->
    exists s m, (s0 <- text_boot p prog ram ;; text_cycles p n s0) = Some s /\
      RunSpec.isa_run prog n (DebugLoad.start base ram) = Some m /\
      D.InterpreterDebug_pc s = Int (Isa.m_pc m) /\
      (forall r, Isa.reg r -> nth_error (D.InterpreterDebug_registers s) (Z.to_nat r) = Some (Int (Isa.get (Isa.m_rf m) r))) /\
      (forall a, base <= a < base + 4 * Z.of_nat (length ram) ->
         exists w, nth_error (D.InterpreterDebug_ram s) (Z.to_nat ((a - base) / 4)) = Some (Int w) /\
           EvalSpec.byte ((a - base) mod 4) w = Isa.m_mem m a).
Proof.
  intros p base prog ram n FP FA FR L0 L1 HB AL.
  destruct (PropDebug.C47_boot (debug_assertions p) prog ram base FP FA FR L0 L1) as (s0 & B & Ok & Rs & Dr & Th & Sh).
  destruct (PropDebug.C47_shadow_runs_are_isa base prog n s0 (DebugLoad.start base ram)) as (s & m & R & Cy & Ok' & Sh' & St);
    try assumption; try (rewrite Rs; assumption).
  exists (dvm_of s), m. rewrite C95_runs by assumption. rewrite B, Cy.
  split; [ reflexivity | ]. split; [ exact R | ].
  destruct Sh' as (S1 & S2 & S3). 
  split; [ cbn; rewrite S1; reflexivity | ].
  split.
  - intros r Hr. cbn. rewrite nth_error_map, (S2 r Hr). reflexivity.
  - intros a Ha. cbn. 
    destruct (S3 a) as (w & N & V).
    + destruct St as (_ & _ & _ & St). rewrite St, Dr. exact Ha.
    + exists w. split; [ rewrite nth_error_map, N; reflexivity | auto ].
Qed.
Print Assumptions C95_text_runs_are_isa.
(* the program of C47 on the text, debug and release *)
Example C95_case :
  forall p, In p [ {| overflow_checks := true; debug_assertions := true |};
                   {| overflow_checks := false; debug_assertions := false |} ] ->
  match (s0 <- text_boot p (RunSpec.asm PropTest.ex_prog) PropDebug.ex_ram ;; text_cycles p 7 s0) with
  | Some s => D.InterpreterDebug_pc s = Int 12 /\
      nth_error (D.InterpreterDebug_registers s) 3 = Some (Int 0xFFFFFFFD) /\
      D.InterpreterDebug_ram s = map Int [1; 0xFFFFFFFD; 3; 4]
  | None => False
  end.
Proof. intros p [ <- | [ <- | [] ] ]; vm_compute; auto. Qed.
