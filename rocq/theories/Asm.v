(** * The table of instruction templates and the setters used to fill them in

    Model of fhevm/src/instructions/mod.rs:76-149.  Test programs are written as
    chains such as [RV32I::ADDI.new().set_imm(4).set_rs1(31).set_rd(31)]
    (fhevm/src/tests/cycle.rs:64-78). *)
Require Import ZArith List Bool.
Require Import Verif.Word Verif.Codec Verif.EvalPlain.
Import ListNotations.
Open Scope Z_scope.

(** mod.rs:80-142, the variants in the order of the source *)
Inductive template :=
| T_LUI | T_AUIPC | T_JAL
| T_ADDI | T_SLTI | T_SLTIU | T_XORI | T_ORI | T_ANDI | T_SLLI | T_SRLI | T_SRAI
| T_ADD | T_SUB | T_SLL | T_SLT | T_SLTU | T_XOR | T_SRL | T_SRA | T_OR | T_AND
| T_LB | T_LH | T_LW | T_LBU | T_LHU
| T_SB | T_SH | T_SW
| T_BEQ | T_BNE | T_BLT | T_BGE | T_BLTU | T_BGEU
| T_JALR.

(** mod.rs:80-149: [new] is the discriminant, written in binary in the source *)
Definition template_word (t : template) : Z :=
  match t with
  | T_LUI => 0x00000037 | T_AUIPC => 0x00000017 | T_JAL => 0x0000006F
  | T_ADDI => 0x00000013 | T_SLTI => 0x00002013 | T_SLTIU => 0x00003013
  | T_XORI => 0x00004013 | T_ORI => 0x00006013 | T_ANDI => 0x00007013
  | T_SLLI => 0x00001013 | T_SRLI => 0x00005013 | T_SRAI => 0x40005013
  | T_ADD => 0x00000033 | T_SUB => 0x40000033 | T_SLL => 0x00001033
  | T_SLT => 0x00002033 | T_SLTU => 0x00003033 | T_XOR => 0x00004033
  | T_SRL => 0x00005033 | T_SRA => 0x40005033 | T_OR => 0x00006033 | T_AND => 0x00007033
  | T_LB => 0x00000003 | T_LH => 0x00001003 | T_LW => 0x00002003
  | T_LBU => 0x00004003 | T_LHU => 0x00005003
  | T_SB => 0x00000023 | T_SH => 0x00001023 | T_SW => 0x00002023
  | T_BEQ => 0x00000063 | T_BNE => 0x00001063 | T_BLT => 0x00004063
  | T_BGE => 0x00005063 | T_BLTU => 0x00006063 | T_BGEU => 0x00007063
  | T_JALR => 0x00000067
  end.

(** the setters of an operand: mod.rs:746-760, 777-791, 808-822, 873-888 *)
Inductive operand := O_rd | O_rs1 | O_rs2 | O_imm.
Definition set_operand (dbg : bool) (o : operand) (w v : Z) : option Z :=
  match o with
  | O_rd => set_rd dbg w v
  | O_rs1 => set_rs1 dbg w v
  | O_rs2 => set_rs2 dbg w v
  | O_imm => set_imm dbg w v
  end.

(** a chain of setters *)
Fixpoint fill (dbg : bool) (w : Z) (ops : list (operand * Z)) : option Z :=
  match ops with
  | [] => Some w
  | (o, v) :: r => do w' <- set_operand dbg o w v; fill dbg w' r
  end.
Definition assemble (dbg : bool) (t : template) (ops : list (operand * Z)) : option Z :=
  fill dbg (template_word t) ops.

(** mod.rs:524-527 *)
Definition assert_size (p : parser) (n : nat) : option unit :=
  if (length (p_imm p) =? n)%nat && (length (p_ins p) =? n)%nat then Some tt else None.
(** mod.rs:547-598 *)
Definition assert_instruction (p : parser) (i : nat) (imm rs2 rs1 rd rd_w mem_w pc_w : Z) : option unit :=
  do (imm', rs2', rs1', rd', rd_w', mem_w', pc_w') <- parser_get p i;
  if (i <? length (p_imm p))%nat && (imm' =? imm) && (rs2' =? rs2) && (rs1' =? rs1) && (rd' =? rd) &&
     (rd_w' =? rd_w) && (mem_w' =? mem_w) && (pc_w' =? pc_w)
  then Some tt else None.

(** ** The unit tests of the instruction formats

    The arguments with which the [test_instruction] functions are called. *)
Inductive unit_test :=
| U_test (op : Z) | J_test (op : Z)
| B_test (f3 op : Z) | S_test (f3 op : Z) | I_test (f3 op : Z)
| Sh_test (imm f3 : Z)
| R_test (f7 f3 op : Z).

(** u_type.rs:30-44, b_type.rs:50-102, s_type.rs:38-63, j_type.rs:46-52,
    i_type.rs:31-165, r_type.rs:6-186 *)
Definition unit_tests : list (unit_test * (rd_op * ram_op * pc_op)) := [
  (U_test 55, (RLUI, MNONE, PNONE));
  (U_test 23, (RAUIPC, MNONE, PNONE));
  (B_test 0 99, (RNONE, MNONE, PBEQ));
  (B_test 5 99, (RNONE, MNONE, PBGE));
  (B_test 7 99, (RNONE, MNONE, PBGEU));
  (B_test 4 99, (RNONE, MNONE, PBLT));
  (B_test 6 99, (RNONE, MNONE, PBLTU));
  (B_test 1 99, (RNONE, MNONE, PBNE));
  (S_test 0 35, (RNONE, MSB, PNONE));
  (S_test 1 35, (RNONE, MSH, PNONE));
  (S_test 2 35, (RNONE, MSW, PNONE));
  (J_test 111, (RJAL, MNONE, PJAL));
  (I_test 0 19, (RADDI, MNONE, PNONE));
  (I_test 2 19, (RSLTI, MNONE, PNONE));
  (I_test 3 19, (RSLTIU, MNONE, PNONE));
  (I_test 4 19, (RXORI, MNONE, PNONE));
  (I_test 6 19, (RORI, MNONE, PNONE));
  (I_test 7 19, (RANDI, MNONE, PNONE));
  (Sh_test 31 1, (RSLLI, MNONE, PNONE));
  (Sh_test 31 5, (RSRLI, MNONE, PNONE));
  (Sh_test 1055 5, (RSRAI, MNONE, PNONE));
  (I_test 0 103, (RJALR, MNONE, PJALR));
  (I_test 0 3, (RLB, MNONE, PNONE));
  (I_test 1 3, (RLH, MNONE, PNONE));
  (I_test 2 3, (RLW, MNONE, PNONE));
  (I_test 4 3, (RLBU, MNONE, PNONE));
  (I_test 5 3, (RLHU, MNONE, PNONE));
  (R_test 0 0 51, (RADD, MNONE, PNONE));
  (R_test 0 7 51, (RAND, MNONE, PNONE));
  (R_test 0 6 51, (ROR, MNONE, PNONE));
  (R_test 0 1 51, (RSLL, MNONE, PNONE));
  (R_test 0 2 51, (RSLT, MNONE, PNONE));
  (R_test 0 3 51, (RSLTU, MNONE, PNONE));
  (R_test 32 5 51, (RSRA, MNONE, PNONE));
  (R_test 0 5 51, (RSRL, MNONE, PNONE));
  (R_test 32 0 51, (RSUB, MNONE, PNONE));
  (R_test 0 4 51, (RXOR, MNONE, PNONE));
  (R_test 1 0 51, (RMUL, MNONE, PNONE));
  (R_test 1 1 51, (RMULH, MNONE, PNONE));
  (R_test 1 2 51, (RMULHSU, MNONE, PNONE));
  (R_test 1 3 51, (RMULHU, MNONE, PNONE));
  (R_test 1 4 51, (RDIV, MNONE, PNONE));
  (R_test 1 5 51, (RDIVU, MNONE, PNONE));
  (R_test 1 6 51, (RREM, MNONE, PNONE));
  (R_test 1 7 51, (RREMU, MNONE, PNONE)) ].

(** the common end of the [test_instruction] functions, e.g. u_type.rs:60-72 *)
Definition check_instruction (dbg : bool) (w imm rs2 rs1 rd : Z) (ops : rd_op * ram_op * pc_op) : option unit :=
  let '(o1, o2, o3) := ops in
  do p <- parser_add dbg parser_new w;
  do _ <- assert_size p 1;
  assert_instruction p 0 imm rs2 rs1 rd (rd_id o1) (ram_id o2) (pc_id o3).

(** u_type.rs:52-73, j_type.rs:58-79, b_type.rs:108-131, s_type.rs:69-93,
    i_type.rs:170-198, i_type.rs:200-225, r_type.rs:191-222.  The operands,
    which are constants in the source ([imm], [rs2], [rs1], [rd] below), are
    parameters here; in [Sh_test] the parameter replaces the shift amount in the
    constant. *)
Definition run_unit_test (dbg : bool) (t : unit_test) (ops : rd_op * ram_op * pc_op) (imm rs2 rs1 rd : Z) : option unit :=
  match t with
  | U_test op =>
      do w <- set_imm dbg op imm; do w <- set_rd dbg w rd;
      check_instruction dbg w imm 0 0 rd ops
  | J_test op =>
      do w <- set_imm dbg op imm; do w <- set_rd dbg w rd;
      check_instruction dbg w (sext imm 20) 0 0 rd ops
  | B_test f3 op =>
      do w <- set_imm dbg op imm; do w <- set_funct3 dbg w f3; do w <- set_rs2 dbg w rs2; do w <- set_rs1 dbg w rs1;
      check_instruction dbg w (sext imm 12) rs2 rs1 0 ops
  | S_test f3 op =>
      do w <- set_imm dbg op imm; do w <- set_funct3 dbg w f3; do w <- set_rs2 dbg w rs2; do w <- set_rs1 dbg w rs1;
      check_instruction dbg w (sext imm 11) rs2 rs1 0 ops
  | I_test f3 op =>
      do w <- set_imm dbg op imm; do w <- set_funct3 dbg w f3; do w <- set_rs1 dbg w rs1; do w <- set_rd dbg w rd;
      check_instruction dbg w (sext imm 11) 0 rs1 rd ops
  | Sh_test c f3 =>
      let imm := Z.lor (Z.land c 0xFE0) imm in
      do w <- set_imm dbg 19 imm; do w <- set_funct3 dbg w f3; do w <- set_rs1 dbg w rs1; do w <- set_rd dbg w rd;
      check_instruction dbg w (Z.land imm 0x1F) 0 rs1 rd ops
  | R_test f7 f3 op =>
      do w <- set_funct3 dbg op f3; do w <- set_funct7 dbg w f7; do w <- set_rs2 dbg w rs2; do w <- set_rs1 dbg w rs1;
      do w <- set_rd dbg w rd;
      check_instruction dbg w 0 rs2 rs1 rd ops
  end.
