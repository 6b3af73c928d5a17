(** * Property C103: the repository's own tests of the codec, as translated

    [TextInstrTests] is the Rust text of the unit tests of the instruction
    formats and of the values [PCU] that the homomorphic test of the program
    counter works on, translated by tools/gen_tests.py; it calls the translated
    functions of [TextInstr].  The tests were modelled by hand before, with their constants
    replaced by parameters (Asm.v, C79-C80; RepoTests.v, C81). *)
Require Import ZArith List Bool Lia.
From Verif Require Import Rust TextFacts.
Require Verif.RustIter Verif.Isa Verif.Word Verif.Codec Verif.EvalPlain Verif.TextInstrTests Verif.Asm Verif.DecodeSpec
  Verif.AsmFacts Verif.PropAsm Verif.RepoTests Verif.PropTests.
Import ListNotations.
Open Scope Z_scope.
Module TT := Verif.TextInstrTests.
Module A := Verif.Asm.
Module R := Verif.RepoTests.

(** ** The unit tests of the formats *)

(** A test function of the text, with the arguments of the model's test *)
Definition test_text (p : profile) (t : A.unit_test) (ops : Codec.rd_op * Codec.ram_op * Codec.pc_op) : option unit :=
  match t with
  | A.U_test op => TT.u_type_test_instruction p (Int op) (opid_of ops)
  | A.J_test op => TT.j_type_test_instruction p (Int op) (opid_of ops)
  | A.B_test f3 op => TT.b_type_test_instruction p (Int f3) (Int op) (opid_of ops)
  | A.S_test f3 op => TT.s_type_test_instruction p (Int f3) (Int op) (opid_of ops)
  | A.I_test f3 op => TT.i_type_test_instruction p (Int f3) (Int op) (opid_of ops)
  | A.Sh_test imm f3 => TT.i_type_test_instruction_shamt p (Int imm) (Int f3) (opid_of ops)
  | A.R_test f7 f3 op => TT.r_type_test_instruction p (Int f7) (Int f3) (Int op) (opid_of ops)
  end.
(** the operands written in the source; the model's test of a shift takes the
    amount apart from the rest of the constant *)
Definition source_imm (t : A.unit_test) : Z :=
  match t with
  | A.U_test _ => 0xABCDE | A.J_test _ => 2 * 0xABCDE | A.B_test _ _ => 2 * 0xABC
  | A.Sh_test c _ => c mod 32
  | _ => 0xABC
  end.

Lemma parser_new_eq : forall p, T.InstructionsParser_new p = Some (parser_of Codec.parser_new).
Proof. reflexivity. Qed.
Lemma len_eq : forall {B} (l : list B) n, (Z.of_nat (length l) =? Z.of_nat n) = (length l =? n)%nat.
Proof.
  intros. destruct (Nat.eqb_spec (length l) n) as [E|E]; [apply Z.eqb_eq | apply Z.eqb_neq]; lia.
Qed.
Lemma assert_size_eq : forall p q n,
  T.InstructionsParser_assert_size p (parser_of q) (Int (Z.of_nat n)) = A.assert_size q n.
Proof.
  intros. unfold T.InstructionsParser_assert_size, A.assert_size, eq, len, parser_of.
  cbn [T.InstructionsParser_imm T.InstructionsParser_instructions val]. rewrite !map_length, !len_eq.
  destruct (_ =? _)%nat; [|reflexivity]. destruct (_ =? _)%nat; reflexivity.
Qed.
Lemma assert_instruction_eq : forall p q i imm rs2 rs1 rd a b c,
  T.InstructionsParser_assert_instruction p (parser_of q) (Int (Z.of_nat i)) (Int imm) (Int rs2) (Int rs1) (Int rd)
    (Int a) (Int b) (Int c)
  = A.assert_instruction q i imm rs2 rs1 rd a b c.
Proof.
  intros. unfold T.InstructionsParser_assert_instruction, A.assert_instruction. rewrite parser_get_eq.
  destruct (Codec.parser_get q i) as [[[[[[[i' r2] r1] d] o1] o2] o3]|]; [|reflexivity].
  cbn [option_map seven]. unfold gt, eq, len, parser_of. cbn [T.InstructionsParser_imm val]. rewrite map_length.
  replace (Z.of_nat (length (Codec.p_imm q)) >? Z.of_nat i) with (i <? length (Codec.p_imm q))%nat.
  2:{ rewrite Z.gtb_ltb. destruct (Nat.ltb_spec i (length (Codec.p_imm q))); symmetry; [apply Z.ltb_lt | apply Z.ltb_ge]; lia. }
  repeat match goal with |- (if ?b then _ else _) = (if _ then _ else _) => destruct b; cbn [andb]; [|reflexivity] end.
  reflexivity.
Qed.

(** the end of the functions *)
Lemma check_eq : forall p w imm rs2 rs1 rd ops,
  (m <- T.InstructionsParser_new p ;;
   m <- T.InstructionsParser_add p m (ins w) ;;
   _ <- T.InstructionsParser_assert_size p m (Int 1) ;;
   _ <- T.InstructionsParser_assert_instruction p m (Int 0) (Int imm) (Int rs2) (Int rs1) (Int rd)
          (cast I64 (T.RD_UPDATE_discriminant (let '(x, _, _) := opid_of ops in x)))
          (cast I64 (T.RAM_UPDATE_discriminant (let '(_, x, _) := opid_of ops in x)))
          (cast I64 (T.PC_UPDATE_discriminant (let '(_, _, x) := opid_of ops in x))) ;;
   Some tt)
  = A.check_instruction (debug_assertions p) w imm rs2 rs1 rd ops.
Proof.
  intros p w imm rs2 rs1 rd [[o1 o2] o3]. rewrite parser_new_eq. cbv iota beta. rewrite parser_add_eq. unfold A.check_instruction.
  destruct (Codec.parser_add _ _ _) as [q|]; [|reflexivity]. cbn [option_map].
  change (@Int USize 1) with (@Int USize (Z.of_nat 1)). rewrite assert_size_eq. destruct (A.assert_size q 1); [|reflexivity].
  cbn [opid_of]. rewrite rd_disc, ram_disc, pc_disc.
  assert (K : forall z, cast I64 (@Int I64 z) = Int z) by reflexivity. rewrite !K.
  change (@Int USize 0) with (@Int USize (Z.of_nat 0)). rewrite assert_instruction_eq. destruct (A.assert_instruction _ _ _ _ _ _ _ _ _) as [[]|]; reflexivity.
Qed.

Lemma cut_imm : forall c, 0 <= c < 2 ^ 12 -> Z.lor (Z.land c 0xFE0) (c mod 32) = c.
Proof.
  intros c H. change 32 with (2 ^ 5). rewrite <- Z.land_ones, <- Z.land_lor_distr_r by lia.
  change (Z.lor 0xFE0 (Z.ones 5)) with (Z.ones 12). rewrite Z.land_ones by lia. now apply Z.mod_small.
Qed.
Lemma new_eq : forall p w, T.Instruction_new p (Int w) = Some (ins w).
Proof. reflexivity. Qed.

Ltac go :=
  repeat (cbv iota beta zeta; cbn [option_map];
    rewrite ?set_imm_eq, ?set_rd_eq, ?set_rs1_eq, ?set_rs2_eq, ?set_funct3_eq, ?set_funct7_eq;
    match goal with
    | |- _ = match ?x with _ => _ end => destruct x; [|reflexivity]
    end).
(** Whatever operation, opcode and funct fields a test is called with, and in
    every build profile, it does what the model's does with the operands of the
    source. *)
Theorem C103_test_functions :
  forall p t ops, (forall c f3, t = A.Sh_test c f3 -> 0 <= c < 2 ^ 12) ->
    test_text p t ops = A.run_unit_test (debug_assertions p) t ops (source_imm t) 27 19 11.
Proof.
  assert (CU : forall w, cast U32 (@Int U32 w) = Int w) by reflexivity.
  assert (C64 : forall w, cast I64 (@Int U32 w) = Int w) by reflexivity.
  intros p t ops SH.
  assert (SB : shl p (@Int U32 2748) (@Int I32 1) = Some (Int 5496)) by (destruct p as [[] []]; reflexivity).
  assert (SJ : shl p (@Int U32 703710) (@Int I32 1) = Some (Int 1407420)) by (destruct p as [[] []]; reflexivity).
  destruct t; cbn [test_text A.run_unit_test source_imm]; change (2 * 703710) with 1407420; change (2 * 2748) with 5496.
  - unfold TT.u_type_test_instruction, lit. rewrite CU, new_eq, !C64. go. exact (check_eq _ _ _ _ _ _ _).
  - unfold TT.j_type_test_instruction, lit. rewrite CU, new_eq, SJ, !C64. cbv zeta iota beta. rewrite sext_eq by lia. rewrite C64.
    go. exact (check_eq _ _ _ _ _ _ _).
  - unfold TT.b_type_test_instruction, lit. rewrite CU, new_eq, SB, !C64. cbv zeta iota beta. rewrite sext_eq by lia. rewrite C64.
    go. exact (check_eq _ _ _ _ _ _ _).
  - unfold TT.s_type_test_instruction, lit. rewrite CU, new_eq, !C64. cbv zeta iota beta. rewrite sext_eq by lia. rewrite C64.
    go. exact (check_eq _ _ _ _ _ _ _).
  - unfold TT.i_type_test_instruction, lit. rewrite CU, new_eq, !C64. cbv zeta iota beta. rewrite sext_eq by lia. rewrite C64.
    go. exact (check_eq _ _ _ _ _ _ _).
  - unfold TT.i_type_test_instruction_shamt, lit. cbv zeta. rewrite CU, new_eq. unfold band. rewrite !C64. cbn [val].
    rewrite (cut_imm imm (SH _ _ Logic.eq_refl)). go. exact (check_eq _ _ _ _ _ _ _).
  - unfold TT.r_type_test_instruction, lit. rewrite CU, new_eq, !C64. go. exact (check_eq _ _ _ _ _ _ _).
Qed.
Print Assumptions C103_test_functions.

(** The 45 tests of operations, in the order of the model's list *)
Definition text_tests (p : profile) : list (option unit) :=
  [
    TT.u_type_lui p; TT.u_type_auipc p; TT.b_type_beq p; TT.b_type_bge p; TT.b_type_bgeu p; TT.b_type_blt p;
    TT.b_type_bltu p; TT.b_type_bne p; TT.s_type_sb p; TT.s_type_sh p; TT.s_type_sw p; TT.j_type_jal p;
    TT.i_type_addi p; TT.i_type_slti p; TT.i_type_sltiu p; TT.i_type_xori p; TT.i_type_ori p; TT.i_type_andi p;
    TT.i_type_slli p; TT.i_type_srli p; TT.i_type_srai p; TT.i_type_jalr p; TT.i_type_lb p; TT.i_type_lh p;
    TT.i_type_lw p; TT.i_type_lbu p; TT.i_type_lhu p; TT.r_type_add p; TT.r_type_and p; TT.r_type_or p;
    TT.r_type_sll p; TT.r_type_slt p; TT.r_type_sltu p; TT.r_type_sra p; TT.r_type_srl p; TT.r_type_sub p;
    TT.r_type_xor p; TT.r_type_mul p; TT.r_type_mulh p; TT.r_type_mulhsu p; TT.r_type_mulhu p; TT.r_type_div p;
    TT.r_type_divu p; TT.r_type_rem p; TT.r_type_remu p ].
Theorem C103_same_tests :
  forall p, text_tests p = map (fun '(t, ops) => test_text p t ops) A.unit_tests.
Proof.
  assert (I : forall x : option unit, match x with Some t => Some t | None => None end = x) by (intros []; reflexivity).
  intro p. unfold text_tests, A.unit_tests. cbn [map test_text].
  repeat (apply (f_equal2 cons); [exact (I _)|]). reflexivity.
Qed.
Print Assumptions C103_same_tests.

Lemma shamt_small : forall t ops, In (t, ops) A.unit_tests -> forall c f3, t = A.Sh_test c f3 -> 0 <= c < 2 ^ 12.
Proof.
  intros t ops I c f3 ->. unfold A.unit_tests in I. cbn [In] in I.
  repeat (destruct I as [E|I]; [try discriminate E; injection E as <- <- _; lia|]). contradiction.
Qed.
Lemma check_unique : forall dbg w imm rs2 rs1 rd a b,
  A.check_instruction dbg w imm rs2 rs1 rd a = Some tt -> A.check_instruction dbg w imm rs2 rs1 rd b = Some tt -> a = b.
Proof.
  intros dbg w imm rs2 rs1 rd [[a1 a2] a3] [[b1 b2] b3]. unfold A.check_instruction.
  destruct (Codec.parser_add _ _ _) as [q|]; [|discriminate]. destruct (A.assert_size q 1); [|discriminate].
  unfold A.assert_instruction. destruct (Codec.parser_get q 0) as [[[[[[[i r2] r1] d] o1] o2] o3]|]; [|discriminate].
  intros E F. destruct (_ && _) eqn:E' in E; [clear E|discriminate E]. destruct (_ && _) eqn:F' in F; [clear F|discriminate F].
  rename E' into E, F' into F. rewrite !andb_true_iff, !Z.eqb_eq in E, F. destruct E as (((_ & E1) & E2) & E3), F as (((_ & F1) & F2) & F3).
  f_equal; [f_equal|]; [apply PropAsm.rd_id_inj | apply PropAsm.ram_id_inj | apply PropAsm.pc_id_inj]; congruence.
Qed.
Lemma run_unique : forall dbg t imm rs2 rs1 rd a b,
  A.run_unit_test dbg t a imm rs2 rs1 rd = Some tt -> A.run_unit_test dbg t b imm rs2 rs1 rd = Some tt -> a = b.
Proof.
  intros dbg t imm rs2 rs1 rd a b. destruct t; cbn [A.run_unit_test]; cbv zeta;
  repeat match goal with |- match ?x with _ => _ end = _ -> _ => destruct x; [|discriminate] end; apply check_unique.
Qed.

(** So the tests of the repository pass, whatever the build profile *)
Theorem C103_tests_pass :
  forall p, Forall (fun t => t = Some tt) (text_tests p) /\
    TT.i_type_imm_encoding p = Some tt /\ TT.s_type_imm_encoding p = Some tt /\ TT.b_type_imm_encoding p = Some tt /\
    TT.j_type_imm_encoding p = Some tt /\ TT.u_type_imm_encoding p = Some tt.
Proof.
  intro p. split; [|destruct p as [[] []]; vm_compute; auto].
  rewrite C103_same_tests. apply Forall_forall. intros r H. apply in_map_iff in H. destruct H as ((t & ops) & <- & I).
  rewrite C103_test_functions by (exact (shamt_small _ _ I)).
  apply Verif.PropAsm.C80_unit_tests; [exact I|].
  unfold AsmFacts.operands_ok, Isa.word, Isa.reg.
  destruct t as [o|o|f3 o|f3 o|f3 o|c f3|f7 f3 o]; cbn [source_imm]; repeat split; lia.
Qed.
Print Assumptions C103_tests_pass.
(** ... and a test fails exactly if it expects another operation than the one
    the word is decoded to. *)
Theorem C103_tests_strict :
  forall p t ops ops', In (t, ops) A.unit_tests -> (test_text p t ops' = Some tt <-> ops' = ops).
Proof.
  intros p t ops ops' I.
  assert (G : test_text p t ops = Some tt).
  { destruct (C103_tests_pass p) as (F & _). rewrite C103_same_tests, Forall_forall in F. apply F.
    apply in_map_iff. exists (t, ops). auto. }
  split; [|now intros ->]. intro H.
  rewrite C103_test_functions in G, H by (exact (shamt_small _ _ I)). exact (run_unique _ _ _ _ _ _ _ _ H G).
Qed.
Print Assumptions C103_tests_strict.


Example C103_test_case :
  length (text_tests (Build_profile true true)) = 45%nat /\
  In (A.B_test 5 99, (Codec.RNONE, Codec.MNONE, Codec.PBGE)) A.unit_tests /\
  test_text (Build_profile true true) (A.B_test 5 99) (Codec.RNONE, Codec.MNONE, Codec.PBGE) = Some tt /\
  test_text (Build_profile true true) (A.B_test 5 99) (Codec.RNONE, Codec.MNONE, Codec.PBLT) = None /\
  (* no branch has funct3 2 *)
  test_text (Build_profile false false) (A.B_test 2 99) (Codec.RNONE, Codec.MNONE, Codec.PBLT) = None.
Proof. vm_compute. auto 20. Qed.

(** ** The templates *)
Definition template_of (t : A.template) : T.RV32I :=
  match t with
  | A.T_LUI => T.RV32I_LUI
  | A.T_AUIPC => T.RV32I_AUIPC
  | A.T_JAL => T.RV32I_JAL
  | A.T_ADDI => T.RV32I_ADDI
  | A.T_SLTI => T.RV32I_SLTI
  | A.T_SLTIU => T.RV32I_SLTIU
  | A.T_XORI => T.RV32I_XORI
  | A.T_ORI => T.RV32I_ORI
  | A.T_ANDI => T.RV32I_ANDI
  | A.T_SLLI => T.RV32I_SLLI
  | A.T_SRLI => T.RV32I_SRLI
  | A.T_SRAI => T.RV32I_SRAI
  | A.T_ADD => T.RV32I_ADD
  | A.T_SUB => T.RV32I_SUB
  | A.T_SLL => T.RV32I_SLL
  | A.T_SLT => T.RV32I_SLT
  | A.T_SLTU => T.RV32I_SLTU
  | A.T_XOR => T.RV32I_XOR
  | A.T_SRL => T.RV32I_SRL
  | A.T_SRA => T.RV32I_SRA
  | A.T_OR => T.RV32I_OR
  | A.T_AND => T.RV32I_AND
  | A.T_LB => T.RV32I_LB
  | A.T_LH => T.RV32I_LH
  | A.T_LW => T.RV32I_LW
  | A.T_LBU => T.RV32I_LBU
  | A.T_LHU => T.RV32I_LHU
  | A.T_SB => T.RV32I_SB
  | A.T_SH => T.RV32I_SH
  | A.T_SW => T.RV32I_SW
  | A.T_BEQ => T.RV32I_BEQ
  | A.T_BNE => T.RV32I_BNE
  | A.T_BLT => T.RV32I_BLT
  | A.T_BGE => T.RV32I_BGE
  | A.T_BLTU => T.RV32I_BLTU
  | A.T_BGEU => T.RV32I_BGEU
  | A.T_JALR => T.RV32I_JALR
  end.
Theorem C103_templates :
  forall p t, T.RV32I_new p (template_of t) = Some (ins (A.template_word t)).
Proof. intros p []; reflexivity. Qed.
Print Assumptions C103_templates.
(** no template of the text is left out *)
Theorem C103_templates_all : forall t, exists m, template_of m = t.
Proof.
  intros t.
  exists (match t with
    | T.RV32I_LUI => A.T_LUI
    | T.RV32I_AUIPC => A.T_AUIPC
    | T.RV32I_JAL => A.T_JAL
    | T.RV32I_ADDI => A.T_ADDI
    | T.RV32I_SLTI => A.T_SLTI
    | T.RV32I_SLTIU => A.T_SLTIU
    | T.RV32I_XORI => A.T_XORI
    | T.RV32I_ORI => A.T_ORI
    | T.RV32I_ANDI => A.T_ANDI
    | T.RV32I_SLLI => A.T_SLLI
    | T.RV32I_SRLI => A.T_SRLI
    | T.RV32I_SRAI => A.T_SRAI
    | T.RV32I_ADD => A.T_ADD
    | T.RV32I_SUB => A.T_SUB
    | T.RV32I_SLL => A.T_SLL
    | T.RV32I_SLT => A.T_SLT
    | T.RV32I_SLTU => A.T_SLTU
    | T.RV32I_XOR => A.T_XOR
    | T.RV32I_SRL => A.T_SRL
    | T.RV32I_SRA => A.T_SRA
    | T.RV32I_OR => A.T_OR
    | T.RV32I_AND => A.T_AND
    | T.RV32I_LB => A.T_LB
    | T.RV32I_LH => A.T_LH
    | T.RV32I_LW => A.T_LW
    | T.RV32I_LBU => A.T_LBU
    | T.RV32I_LHU => A.T_LHU
    | T.RV32I_SB => A.T_SB
    | T.RV32I_SH => A.T_SH
    | T.RV32I_SW => A.T_SW
    | T.RV32I_BEQ => A.T_BEQ
    | T.RV32I_BNE => A.T_BNE
    | T.RV32I_BLT => A.T_BLT
    | T.RV32I_BGE => A.T_BGE
    | T.RV32I_BLTU => A.T_BLTU
    | T.RV32I_BGEU => A.T_BGEU
    | T.RV32I_JALR => A.T_JALR
    end); destruct t; reflexivity.
Qed.
Print Assumptions C103_templates_all.

(** ** The values of the test of the program counter *)
Definition pcu_of (u : R.pcu) : TT.PCU :=
  TT.mk_PCU (pc_of (R.u_op u)) (Int (R.u_rs1 u)) (Int (R.u_rs2 u)) (Int (R.u_pc u)) (Int (R.u_imm u)).
Definition adjust_text (p : profile) (a : R.adjust) (u : TT.PCU) : option TT.PCU :=
  match a with
  | R.Adj_none => Some u
  | R.Adj_eq => TT.PCU_set_rs2_equal_rs1 p u
  | R.Adj_lt => TT.PCU_set_rs1_lt_rs2 p u
  | R.Adj_gte => TT.PCU_set_rs1_gte_rs2 p u
  | R.Adj_lt_signed => TT.PCU_set_rs1_lt_rs2_signed p u
  | R.Adj_gte_signed => TT.PCU_set_rs1_gte_rs2_signed p u
  end.

Theorem C103_pcu_fields :
  forall p u v o,
    TT.PCU_new p (pc_of o) = Some (pcu_of (R.pcu_new o)) /\
    TT.PCU_u_rs1 p (pcu_of u) (Int v) = Some (pcu_of (R.set_rs1 u v)) /\
    TT.PCU_u_rs2 p (pcu_of u) (Int v) = Some (pcu_of (R.set_rs2 u v)) /\
    TT.PCU_u_pc p (pcu_of u) (Int v) = Some (pcu_of (R.set_pc u v)) /\
    TT.PCU_u_imm p (pcu_of u) (Int v) = Some (pcu_of (R.set_imm u v)).
Proof. intros [[] []] u v o; repeat split; reflexivity. Qed.
Print Assumptions C103_pcu_fields.

(** The adjustments of the registers; the increment panics on the largest word
    with overflow checks *)
Theorem C103_pcu_adjust :
  forall p a u, word (R.u_rs1 u) -> word (R.u_rs2 u) ->
    adjust_text p a (pcu_of u) = option_map pcu_of (R.adjusted (overflow_checks p) a u).
Proof.
  intros p a [o x y c i] X Y. cbn [R.u_rs1 R.u_rs2] in X, Y.
  assert (U : forall v, word v -> add p (@Int U32 v) (@Int U32 1) = option_map Int (R.incr (overflow_checks p) v)).
  { intros v V. unfold add, checked, fits, R.incr. cbn [val]. change (least U32) with 0. change (largest U32) with 4294967295.
    unfold word in V. destruct (Z.eqb_spec v 0xFFFFFFFF) as [->|N].
    - cbn. destruct (overflow_checks p); reflexivity.
    - rewrite andb_false_r. rewrite (proj2 (Z.leb_le _ _)) by lia. rewrite (proj2 (Z.leb_le _ _)) by lia. cbn [andb option_map].
      do 2 f_equal. unfold Word.u32. rewrite Z.mod_small by lia. reflexivity. }
  assert (V : forall v w, R.incr (overflow_checks p) v = Some w -> word w).
  { unfold R.incr. intros v w. destruct (_ && _); [discriminate|]. intros [= <-]. apply Z.mod_pos_bound. reflexivity. }
  assert (K : forall z, cast U32 (@Int I32 z) = Int (Word.u32 z)) by reflexivity.
  destruct a; cbn [adjust_text R.adjusted]; try reflexivity;
    unfold TT.PCU_set_rs1_lt_rs2, TT.PCU_set_rs1_gte_rs2, TT.PCU_set_rs1_lt_rs2_signed, TT.PCU_set_rs1_gte_rs2_signed,
      R.unless_equal, pcu_of, lit, eq, RustIter.max, RustIter.min, TT.set_PCU_rs1, TT.set_PCU_rs2;
    cbn [TT.PCU_op_type TT.PCU_rs1 TT.PCU_rs2 TT.PCU_pc TT.PCU_imm R.u_op R.u_rs1 R.u_rs2 R.u_pc R.u_imm val R.set_rs1 R.set_rs2];
    try (destruct (x =? y); [rewrite U by exact X; destruct (R.incr (overflow_checks p) x) as [w|] eqn:E; [apply V in E|reflexivity]|]);
    cbn [option_map TT.PCU_op_type TT.PCU_rs1 TT.PCU_rs2 TT.PCU_pc TT.PCU_imm R.u_op R.u_rs1 R.u_rs2 R.u_pc R.u_imm val R.set_rs1 R.set_rs2];
    rewrite ?cast_i32 by assumption; cbn [val]; rewrite ?K; reflexivity.
Qed.
Print Assumptions C103_pcu_adjust.

(** The value a case of the test expects *)
Theorem C103_pcu_expected :
  forall p u, word (R.u_rs1 u) -> word (R.u_rs2 u) ->
    TT.PCU_expected_update p (pcu_of u) = Some (Int (R.expected_update u)).
Proof.
  intros p [o x y c i] X Y. cbn [R.u_rs1 R.u_rs2] in X, Y. unfold TT.PCU_expected_update, pcu_of, R.expected_update, lit.
  cbn [TT.PCU_op_type TT.PCU_rs1 TT.PCU_rs2 TT.PCU_pc TT.PCU_imm R.u_op R.u_rs1 R.u_rs2 R.u_pc R.u_imm].
  rewrite sext_eq by lia. rewrite pc_eval_eq by assumption. reflexivity.
Qed.
Print Assumptions C103_pcu_expected.
Example C103_pcu_case : (* -1 and 1 are swapped by the unsigned adjustment only *)
  let u := R.PCU Codec.PBLT 0xFFFFFFFF 1 0x100 0xFFFF8 in
  word (R.u_rs1 u) /\ word (R.u_rs2 u) /\
  adjust_text (Build_profile true true) R.Adj_lt (pcu_of u) = Some (pcu_of (R.PCU Codec.PBLT 1 0xFFFFFFFF 0x100 0xFFFF8)) /\
  adjust_text (Build_profile true true) R.Adj_lt_signed (pcu_of u) = Some (pcu_of u) /\
  TT.PCU_expected_update (Build_profile true true) (pcu_of u) = Some (Int 0xF8) /\
  adjust_text (Build_profile true true) R.Adj_lt (pcu_of (R.PCU Codec.PBEQ 0xFFFFFFFF 0xFFFFFFFF 0 0)) = None /\
  adjust_text (Build_profile false true) R.Adj_lt (pcu_of (R.PCU Codec.PBEQ 0xFFFFFFFF 0xFFFFFFFF 0 0))
    = Some (pcu_of (R.PCU Codec.PBEQ 0 0xFFFFFFFF 0 0)).
Proof. unfold word. repeat split; vm_compute; (reflexivity || discriminate). Qed.
