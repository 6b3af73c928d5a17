(** * The repository's tests of the instruction codec, translated

    Generated by tools/gen_tests.py from fhevm/src/instructions/b_type.rs, fhevm/src/instructions/i_type.rs, fhevm/src/instructions/j_type.rs, fhevm/src/instructions/r_type.rs, fhevm/src/instructions/s_type.rs, fhevm/src/instructions/u_type.rs, fhevm/src/pc_update.rs.
    Do not edit.  The operators are those of Rust.v. *)
Require Import ZArith List Bool.
From Verif Require Import Rust.
From Verif Require Import RustIter.
From Verif Require Import TextInstr.
Import ListNotations.
Open Scope Z_scope.
Local Notation u8 := (Rust.int Rust.U8).
Local Notation u16 := (Rust.int Rust.U16).
Local Notation u32 := (Rust.int Rust.U32).
Local Notation u64 := (Rust.int Rust.U64).
Local Notation usize := (Rust.int Rust.USize).
Local Notation i32 := (Rust.int Rust.I32).
Local Notation i64 := (Rust.int Rust.I64).


(** fhevm/src/pc_update.rs:103-112 *)
Record PCU := mk_PCU {
  PCU_op_type : PC_UPDATE;
  PCU_rs1 : u32;
  PCU_rs2 : u32;
  PCU_pc : u32;
  PCU_imm : u32 }.

Definition set_PCU_op_type (s : PCU) (x : PC_UPDATE) : PCU :=
  mk_PCU x (PCU_rs1 s) (PCU_rs2 s) (PCU_pc s) (PCU_imm s).

Definition set_PCU_rs1 (s : PCU) (x : u32) : PCU :=
  mk_PCU (PCU_op_type s) x (PCU_rs2 s) (PCU_pc s) (PCU_imm s).

Definition set_PCU_rs2 (s : PCU) (x : u32) : PCU :=
  mk_PCU (PCU_op_type s) (PCU_rs1 s) x (PCU_pc s) (PCU_imm s).

Definition set_PCU_pc (s : PCU) (x : u32) : PCU :=
  mk_PCU (PCU_op_type s) (PCU_rs1 s) (PCU_rs2 s) x (PCU_imm s).

Definition set_PCU_imm (s : PCU) (x : u32) : PCU :=
  mk_PCU (PCU_op_type s) (PCU_rs1 s) (PCU_rs2 s) (PCU_pc s) x.

(** fhevm/src/instructions/b_type.rs:41-48 *)
Definition b_type_imm_encoding (p : Rust.profile)  : option unit :=
  _ <- Rust.for_range (Rust.lit (t := Rust.I32) 1) (Rust.lit (t := Rust.I32) 13) (fun i _ => t1 <- Rust.shl p (Rust.lit 1) i ;;
    let immediate : u32 := t1 in
    let instruction : u32 := (Rust.lit 0) in
    t3 <- b_type_set_immediate p (mk_Instruction instruction) immediate ;;
    let t4 : u32 := (Instruction_0 t3) in
    let instruction := t4 in
    t5 <- instructions_sext p immediate (Rust.lit 12) ;;
    t6 <- b_type_get_immediate p instruction ;;
    if (Rust.eq t5 t6) then Some tt else None) tt ;;
  Some tt.

(** fhevm/src/instructions/b_type.rs:108-131 *)
Definition b_type_test_instruction (p : Rust.profile) (funct3 : u32) (op_code : u32) (op_id : (RD_UPDATE * RAM_UPDATE * PC_UPDATE)) : option unit :=
  t1 <- Rust.shl p (Rust.lit 2748) (Rust.lit (t := Rust.I32) 1) ;;
  let imm : u32 := t1 in
  let rs2 : u32 := (Rust.lit 27) in
  let rs1 : u32 := (Rust.lit 19) in
  let rd : u32 := (Rust.lit 0) in
  t2 <- Instruction_new p (Rust.cast Rust.U32 op_code) ;;
  let instruction : Instruction := t2 in
  t3 <- Instruction_set_imm p instruction imm ;;
  let instruction := t3 in
  t4 <- Instruction_set_funct3 p instruction funct3 ;;
  let instruction := t4 in
  t5 <- Instruction_set_rs2 p instruction rs2 ;;
  let instruction := t5 in
  t6 <- Instruction_set_rs1 p instruction rs1 ;;
  let instruction := t6 in
  t7 <- InstructionsParser_new p  ;;
  let m : InstructionsParser := t7 in
  t8 <- InstructionsParser_add p m instruction ;;
  let m := t8 in
  t9 <- InstructionsParser_assert_size p m (Rust.lit 1) ;;
  t10 <- instructions_sext p imm (Rust.lit 12) ;;
  t11 <- InstructionsParser_assert_instruction p m (Rust.lit 0) (Rust.cast Rust.I64 t10) (Rust.cast Rust.I64 rs2) (Rust.cast Rust.I64 rs1) (Rust.cast Rust.I64 rd) (Rust.cast Rust.I64 (RD_UPDATE_discriminant (let '(x0, x1, x2) := op_id in x0))) (Rust.cast Rust.I64 (RAM_UPDATE_discriminant (let '(x0, x1, x2) := op_id in x1))) (Rust.cast Rust.I64 (PC_UPDATE_discriminant (let '(x0, x1, x2) := op_id in x2))) ;;
  Some tt.

(** fhevm/src/instructions/b_type.rs:51-57 *)
Definition b_type_beq (p : Rust.profile)  : option unit :=
  t1 <- b_type_test_instruction p (Rust.lit 0) (Rust.lit 99) (RD_UPDATE_NONE, RAM_UPDATE_NONE, PC_UPDATE_BEQ) ;;
  Some t1.

(** fhevm/src/instructions/b_type.rs:60-66 *)
Definition b_type_bge (p : Rust.profile)  : option unit :=
  t1 <- b_type_test_instruction p (Rust.lit 5) (Rust.lit 99) (RD_UPDATE_NONE, RAM_UPDATE_NONE, PC_UPDATE_BGE) ;;
  Some t1.

(** fhevm/src/instructions/b_type.rs:69-75 *)
Definition b_type_bgeu (p : Rust.profile)  : option unit :=
  t1 <- b_type_test_instruction p (Rust.lit 7) (Rust.lit 99) (RD_UPDATE_NONE, RAM_UPDATE_NONE, PC_UPDATE_BGEU) ;;
  Some t1.

(** fhevm/src/instructions/b_type.rs:78-84 *)
Definition b_type_blt (p : Rust.profile)  : option unit :=
  t1 <- b_type_test_instruction p (Rust.lit 4) (Rust.lit 99) (RD_UPDATE_NONE, RAM_UPDATE_NONE, PC_UPDATE_BLT) ;;
  Some t1.

(** fhevm/src/instructions/b_type.rs:87-93 *)
Definition b_type_bltu (p : Rust.profile)  : option unit :=
  t1 <- b_type_test_instruction p (Rust.lit 6) (Rust.lit 99) (RD_UPDATE_NONE, RAM_UPDATE_NONE, PC_UPDATE_BLTU) ;;
  Some t1.

(** fhevm/src/instructions/b_type.rs:96-102 *)
Definition b_type_bne (p : Rust.profile)  : option unit :=
  t1 <- b_type_test_instruction p (Rust.lit 1) (Rust.lit 99) (RD_UPDATE_NONE, RAM_UPDATE_NONE, PC_UPDATE_BNE) ;;
  Some t1.

(** fhevm/src/instructions/i_type.rs:23-30 *)
Definition i_type_imm_encoding (p : Rust.profile)  : option unit :=
  _ <- Rust.for_range (Rust.lit (t := Rust.I32) 0) (Rust.lit (t := Rust.I32) 12) (fun i _ => t1 <- Rust.shl p (Rust.lit 1) i ;;
    let immediate : u32 := t1 in
    let instruction : u32 := (Rust.lit 0) in
    t3 <- i_type_set_immediate p (mk_Instruction instruction) immediate ;;
    let t4 : u32 := (Instruction_0 t3) in
    let instruction := t4 in
    t5 <- instructions_sext p immediate (Rust.lit 11) ;;
    t6 <- i_type_get_immediate p instruction ;;
    if (Rust.eq t5 t6) then Some tt else None) tt ;;
  Some tt.

(** fhevm/src/instructions/i_type.rs:170-196 *)
Definition i_type_test_instruction (p : Rust.profile) (funct3 : u32) (op_code : u32) (opid : (RD_UPDATE * RAM_UPDATE * PC_UPDATE)) : option unit :=
  let funct3 : u32 := funct3 in
  let imm : u32 := (Rust.lit 2748) in
  let rs2 : u32 := (Rust.lit 0) in
  let rs1 : u32 := (Rust.lit 19) in
  let rd : u32 := (Rust.lit 11) in
  t1 <- Instruction_new p (Rust.cast Rust.U32 op_code) ;;
  let instruction : Instruction := t1 in
  t2 <- Instruction_set_imm p instruction imm ;;
  let instruction := t2 in
  t3 <- Instruction_set_funct3 p instruction funct3 ;;
  let instruction := t3 in
  t4 <- Instruction_set_rs1 p instruction rs1 ;;
  let instruction := t4 in
  t5 <- Instruction_set_rd p instruction rd ;;
  let instruction := t5 in
  t6 <- InstructionsParser_new p  ;;
  let m : InstructionsParser := t6 in
  t7 <- InstructionsParser_add p m instruction ;;
  let m := t7 in
  t8 <- InstructionsParser_assert_size p m (Rust.lit 1) ;;
  t9 <- instructions_sext p imm (Rust.lit 11) ;;
  t10 <- InstructionsParser_assert_instruction p m (Rust.lit 0) (Rust.cast Rust.I64 t9) (Rust.cast Rust.I64 rs2) (Rust.cast Rust.I64 rs1) (Rust.cast Rust.I64 rd) (Rust.cast Rust.I64 (RD_UPDATE_discriminant (let '(x0, x1, x2) := opid in x0))) (Rust.cast Rust.I64 (RAM_UPDATE_discriminant (let '(x0, x1, x2) := opid in x1))) (Rust.cast Rust.I64 (PC_UPDATE_discriminant (let '(x0, x1, x2) := opid in x2))) ;;
  Some tt.

(** fhevm/src/instructions/i_type.rs:33-39 *)
Definition i_type_addi (p : Rust.profile)  : option unit :=
  t1 <- i_type_test_instruction p (Rust.lit 0) (Rust.lit 19) (RD_UPDATE_ADDI, RAM_UPDATE_NONE, PC_UPDATE_NONE) ;;
  Some t1.

(** fhevm/src/instructions/i_type.rs:42-48 *)
Definition i_type_slti (p : Rust.profile)  : option unit :=
  t1 <- i_type_test_instruction p (Rust.lit 2) (Rust.lit 19) (RD_UPDATE_SLTI, RAM_UPDATE_NONE, PC_UPDATE_NONE) ;;
  Some t1.

(** fhevm/src/instructions/i_type.rs:51-57 *)
Definition i_type_sltiu (p : Rust.profile)  : option unit :=
  t1 <- i_type_test_instruction p (Rust.lit 3) (Rust.lit 19) (RD_UPDATE_SLTIU, RAM_UPDATE_NONE, PC_UPDATE_NONE) ;;
  Some t1.

(** fhevm/src/instructions/i_type.rs:60-66 *)
Definition i_type_xori (p : Rust.profile)  : option unit :=
  t1 <- i_type_test_instruction p (Rust.lit 4) (Rust.lit 19) (RD_UPDATE_XORI, RAM_UPDATE_NONE, PC_UPDATE_NONE) ;;
  Some t1.

(** fhevm/src/instructions/i_type.rs:69-75 *)
Definition i_type_ori (p : Rust.profile)  : option unit :=
  t1 <- i_type_test_instruction p (Rust.lit 6) (Rust.lit 19) (RD_UPDATE_ORI, RAM_UPDATE_NONE, PC_UPDATE_NONE) ;;
  Some t1.

(** fhevm/src/instructions/i_type.rs:78-84 *)
Definition i_type_andi (p : Rust.profile)  : option unit :=
  t1 <- i_type_test_instruction p (Rust.lit 7) (Rust.lit 19) (RD_UPDATE_ANDI, RAM_UPDATE_NONE, PC_UPDATE_NONE) ;;
  Some t1.

(** fhevm/src/instructions/i_type.rs:200-225 *)
Definition i_type_test_instruction_shamt (p : Rust.profile) (imm : u32) (funct3 : u32) (opid : (RD_UPDATE * RAM_UPDATE * PC_UPDATE)) : option unit :=
  let op_code : u32 := (Rust.lit 19) in
  let funct3 : u32 := funct3 in
  let rs2 : u32 := (Rust.lit 0) in
  let rs1 : u32 := (Rust.lit 19) in
  let rd : u32 := (Rust.lit 11) in
  t1 <- Instruction_new p (Rust.cast Rust.U32 op_code) ;;
  let instruction : Instruction := t1 in
  t2 <- Instruction_set_imm p instruction imm ;;
  let instruction := t2 in
  t3 <- Instruction_set_funct3 p instruction funct3 ;;
  let instruction := t3 in
  t4 <- Instruction_set_rs1 p instruction rs1 ;;
  let instruction := t4 in
  t5 <- Instruction_set_rd p instruction rd ;;
  let instruction := t5 in
  t6 <- InstructionsParser_new p  ;;
  let m : InstructionsParser := t6 in
  t7 <- InstructionsParser_add p m instruction ;;
  let m := t7 in
  t8 <- InstructionsParser_assert_size p m (Rust.lit 1) ;;
  t9 <- InstructionsParser_assert_instruction p m (Rust.lit 0) (Rust.cast Rust.I64 (Rust.band imm (Rust.lit 31))) (Rust.cast Rust.I64 rs2) (Rust.cast Rust.I64 rs1) (Rust.cast Rust.I64 rd) (Rust.cast Rust.I64 (RD_UPDATE_discriminant (let '(x0, x1, x2) := opid in x0))) (Rust.cast Rust.I64 (RAM_UPDATE_discriminant (let '(x0, x1, x2) := opid in x1))) (Rust.cast Rust.I64 (PC_UPDATE_discriminant (let '(x0, x1, x2) := opid in x2))) ;;
  Some tt.

(** fhevm/src/instructions/i_type.rs:87-93 *)
Definition i_type_slli (p : Rust.profile)  : option unit :=
  t1 <- i_type_test_instruction_shamt p (Rust.lit 31) (Rust.lit 1) (RD_UPDATE_SLLI, RAM_UPDATE_NONE, PC_UPDATE_NONE) ;;
  Some t1.

(** fhevm/src/instructions/i_type.rs:96-102 *)
Definition i_type_srli (p : Rust.profile)  : option unit :=
  t1 <- i_type_test_instruction_shamt p (Rust.lit 31) (Rust.lit 5) (RD_UPDATE_SRLI, RAM_UPDATE_NONE, PC_UPDATE_NONE) ;;
  Some t1.

(** fhevm/src/instructions/i_type.rs:105-111 *)
Definition i_type_srai (p : Rust.profile)  : option unit :=
  t1 <- i_type_test_instruction_shamt p (Rust.lit 1055) (Rust.lit 5) (RD_UPDATE_SRAI, RAM_UPDATE_NONE, PC_UPDATE_NONE) ;;
  Some t1.

(** fhevm/src/instructions/i_type.rs:114-120 *)
Definition i_type_jalr (p : Rust.profile)  : option unit :=
  t1 <- i_type_test_instruction p (Rust.lit 0) (Rust.lit 103) (RD_UPDATE_JALR, RAM_UPDATE_NONE, PC_UPDATE_JALR) ;;
  Some t1.

(** fhevm/src/instructions/i_type.rs:123-129 *)
Definition i_type_lb (p : Rust.profile)  : option unit :=
  t1 <- i_type_test_instruction p (Rust.lit 0) (Rust.lit 3) (RD_UPDATE_LB, RAM_UPDATE_NONE, PC_UPDATE_NONE) ;;
  Some t1.

(** fhevm/src/instructions/i_type.rs:132-138 *)
Definition i_type_lh (p : Rust.profile)  : option unit :=
  t1 <- i_type_test_instruction p (Rust.lit 1) (Rust.lit 3) (RD_UPDATE_LH, RAM_UPDATE_NONE, PC_UPDATE_NONE) ;;
  Some t1.

(** fhevm/src/instructions/i_type.rs:141-147 *)
Definition i_type_lw (p : Rust.profile)  : option unit :=
  t1 <- i_type_test_instruction p (Rust.lit 2) (Rust.lit 3) (RD_UPDATE_LW, RAM_UPDATE_NONE, PC_UPDATE_NONE) ;;
  Some t1.

(** fhevm/src/instructions/i_type.rs:150-156 *)
Definition i_type_lbu (p : Rust.profile)  : option unit :=
  t1 <- i_type_test_instruction p (Rust.lit 4) (Rust.lit 3) (RD_UPDATE_LBU, RAM_UPDATE_NONE, PC_UPDATE_NONE) ;;
  Some t1.

(** fhevm/src/instructions/i_type.rs:159-165 *)
Definition i_type_lhu (p : Rust.profile)  : option unit :=
  t1 <- i_type_test_instruction p (Rust.lit 5) (Rust.lit 3) (RD_UPDATE_LHU, RAM_UPDATE_NONE, PC_UPDATE_NONE) ;;
  Some t1.

(** fhevm/src/instructions/j_type.rs:37-44 *)
Definition j_type_imm_encoding (p : Rust.profile)  : option unit :=
  _ <- Rust.for_range (Rust.lit (t := Rust.I32) 1) (Rust.lit (t := Rust.I32) 21) (fun i _ => t1 <- Rust.shl p (Rust.lit 1) i ;;
    let immediate : u32 := t1 in
    let instruction : u32 := (Rust.lit 0) in
    t3 <- j_type_set_immediate p (mk_Instruction instruction) immediate ;;
    let t4 : u32 := (Instruction_0 t3) in
    let instruction := t4 in
    t5 <- instructions_sext p immediate (Rust.lit 20) ;;
    t6 <- j_type_get_immediate p instruction ;;
    if (Rust.eq t5 t6) then Some tt else None) tt ;;
  Some tt.

(** fhevm/src/instructions/j_type.rs:58-79 *)
Definition j_type_test_instruction (p : Rust.profile) (op_code : u32) (op_id : (RD_UPDATE * RAM_UPDATE * PC_UPDATE)) : option unit :=
  t1 <- Rust.shl p (Rust.lit 703710) (Rust.lit (t := Rust.I32) 1) ;;
  let imm : u32 := t1 in
  let rs2 : u32 := (Rust.lit 0) in
  let rs1 : u32 := (Rust.lit 0) in
  let rd : u32 := (Rust.lit 11) in
  t2 <- Instruction_new p (Rust.cast Rust.U32 op_code) ;;
  let instruction : Instruction := t2 in
  t3 <- Instruction_set_imm p instruction imm ;;
  let instruction := t3 in
  t4 <- Instruction_set_rd p instruction rd ;;
  let instruction := t4 in
  t5 <- InstructionsParser_new p  ;;
  let m : InstructionsParser := t5 in
  t6 <- InstructionsParser_add p m instruction ;;
  let m := t6 in
  t7 <- InstructionsParser_assert_size p m (Rust.lit 1) ;;
  t8 <- instructions_sext p imm (Rust.lit 20) ;;
  t9 <- InstructionsParser_assert_instruction p m (Rust.lit 0) (Rust.cast Rust.I64 t8) (Rust.cast Rust.I64 rs2) (Rust.cast Rust.I64 rs1) (Rust.cast Rust.I64 rd) (Rust.cast Rust.I64 (RD_UPDATE_discriminant (let '(x0, x1, x2) := op_id in x0))) (Rust.cast Rust.I64 (RAM_UPDATE_discriminant (let '(x0, x1, x2) := op_id in x1))) (Rust.cast Rust.I64 (PC_UPDATE_discriminant (let '(x0, x1, x2) := op_id in x2))) ;;
  Some tt.

(** fhevm/src/instructions/j_type.rs:47-52 *)
Definition j_type_jal (p : Rust.profile)  : option unit :=
  t1 <- j_type_test_instruction p (Rust.lit 111) (RD_UPDATE_JAL, RAM_UPDATE_NONE, PC_UPDATE_JAL) ;;
  Some t1.

(** fhevm/src/instructions/r_type.rs:191-222 *)
Definition r_type_test_instruction (p : Rust.profile) (funct7 : u32) (funct3 : u32) (op_code : u32) (opid : (RD_UPDATE * RAM_UPDATE * PC_UPDATE)) : option unit :=
  let imm : u32 := (Rust.lit 0) in
  let rs2 : u32 := (Rust.lit 27) in
  let rs1 : u32 := (Rust.lit 19) in
  let rd : u32 := (Rust.lit 11) in
  t1 <- Instruction_new p (Rust.cast Rust.U32 op_code) ;;
  let instruction : Instruction := t1 in
  t2 <- Instruction_set_funct3 p instruction funct3 ;;
  let instruction := t2 in
  t3 <- Instruction_set_funct7 p instruction funct7 ;;
  let instruction := t3 in
  t4 <- Instruction_set_rs2 p instruction rs2 ;;
  let instruction := t4 in
  t5 <- Instruction_set_rs1 p instruction rs1 ;;
  let instruction := t5 in
  t6 <- Instruction_set_rd p instruction rd ;;
  let instruction := t6 in
  t7 <- InstructionsParser_new p  ;;
  let m : InstructionsParser := t7 in
  t8 <- InstructionsParser_add p m instruction ;;
  let m := t8 in
  t9 <- InstructionsParser_assert_size p m (Rust.lit 1) ;;
  t10 <- InstructionsParser_assert_instruction p m (Rust.lit 0) (Rust.cast Rust.I64 imm) (Rust.cast Rust.I64 rs2) (Rust.cast Rust.I64 rs1) (Rust.cast Rust.I64 rd) (Rust.cast Rust.I64 (RD_UPDATE_discriminant (let '(x0, x1, x2) := opid in x0))) (Rust.cast Rust.I64 (RAM_UPDATE_discriminant (let '(x0, x1, x2) := opid in x1))) (Rust.cast Rust.I64 (PC_UPDATE_discriminant (let '(x0, x1, x2) := opid in x2))) ;;
  Some tt.

(** fhevm/src/instructions/r_type.rs:8-15 *)
Definition r_type_add (p : Rust.profile)  : option unit :=
  t1 <- r_type_test_instruction p (Rust.lit 0) (Rust.lit 0) (Rust.lit 51) (RD_UPDATE_ADD, RAM_UPDATE_NONE, PC_UPDATE_NONE) ;;
  Some t1.

(** fhevm/src/instructions/r_type.rs:18-25 *)
Definition r_type_and (p : Rust.profile)  : option unit :=
  t1 <- r_type_test_instruction p (Rust.lit 0) (Rust.lit 7) (Rust.lit 51) (RD_UPDATE_AND, RAM_UPDATE_NONE, PC_UPDATE_NONE) ;;
  Some t1.

(** fhevm/src/instructions/r_type.rs:28-35 *)
Definition r_type_or (p : Rust.profile)  : option unit :=
  t1 <- r_type_test_instruction p (Rust.lit 0) (Rust.lit 6) (Rust.lit 51) (RD_UPDATE_OR, RAM_UPDATE_NONE, PC_UPDATE_NONE) ;;
  Some t1.

(** fhevm/src/instructions/r_type.rs:38-45 *)
Definition r_type_sll (p : Rust.profile)  : option unit :=
  t1 <- r_type_test_instruction p (Rust.lit 0) (Rust.lit 1) (Rust.lit 51) (RD_UPDATE_SLL, RAM_UPDATE_NONE, PC_UPDATE_NONE) ;;
  Some t1.

(** fhevm/src/instructions/r_type.rs:48-55 *)
Definition r_type_slt (p : Rust.profile)  : option unit :=
  t1 <- r_type_test_instruction p (Rust.lit 0) (Rust.lit 2) (Rust.lit 51) (RD_UPDATE_SLT, RAM_UPDATE_NONE, PC_UPDATE_NONE) ;;
  Some t1.

(** fhevm/src/instructions/r_type.rs:58-65 *)
Definition r_type_sltu (p : Rust.profile)  : option unit :=
  t1 <- r_type_test_instruction p (Rust.lit 0) (Rust.lit 3) (Rust.lit 51) (RD_UPDATE_SLTU, RAM_UPDATE_NONE, PC_UPDATE_NONE) ;;
  Some t1.

(** fhevm/src/instructions/r_type.rs:68-75 *)
Definition r_type_sra (p : Rust.profile)  : option unit :=
  t1 <- r_type_test_instruction p (Rust.lit 32) (Rust.lit 5) (Rust.lit 51) (RD_UPDATE_SRA, RAM_UPDATE_NONE, PC_UPDATE_NONE) ;;
  Some t1.

(** fhevm/src/instructions/r_type.rs:78-85 *)
Definition r_type_srl (p : Rust.profile)  : option unit :=
  t1 <- r_type_test_instruction p (Rust.lit 0) (Rust.lit 5) (Rust.lit 51) (RD_UPDATE_SRL, RAM_UPDATE_NONE, PC_UPDATE_NONE) ;;
  Some t1.

(** fhevm/src/instructions/r_type.rs:88-95 *)
Definition r_type_sub (p : Rust.profile)  : option unit :=
  t1 <- r_type_test_instruction p (Rust.lit 32) (Rust.lit 0) (Rust.lit 51) (RD_UPDATE_SUB, RAM_UPDATE_NONE, PC_UPDATE_NONE) ;;
  Some t1.

(** fhevm/src/instructions/r_type.rs:98-105 *)
Definition r_type_xor (p : Rust.profile)  : option unit :=
  t1 <- r_type_test_instruction p (Rust.lit 0) (Rust.lit 4) (Rust.lit 51) (RD_UPDATE_XOR, RAM_UPDATE_NONE, PC_UPDATE_NONE) ;;
  Some t1.

(** fhevm/src/instructions/r_type.rs:108-115 *)
Definition r_type_mul (p : Rust.profile)  : option unit :=
  t1 <- r_type_test_instruction p (Rust.lit 1) (Rust.lit 0) (Rust.lit 51) (RD_UPDATE_MUL, RAM_UPDATE_NONE, PC_UPDATE_NONE) ;;
  Some t1.

(** fhevm/src/instructions/r_type.rs:118-125 *)
Definition r_type_mulh (p : Rust.profile)  : option unit :=
  t1 <- r_type_test_instruction p (Rust.lit 1) (Rust.lit 1) (Rust.lit 51) (RD_UPDATE_MULH, RAM_UPDATE_NONE, PC_UPDATE_NONE) ;;
  Some t1.

(** fhevm/src/instructions/r_type.rs:128-135 *)
Definition r_type_mulhsu (p : Rust.profile)  : option unit :=
  t1 <- r_type_test_instruction p (Rust.lit 1) (Rust.lit 2) (Rust.lit 51) (RD_UPDATE_MULHSU, RAM_UPDATE_NONE, PC_UPDATE_NONE) ;;
  Some t1.

(** fhevm/src/instructions/r_type.rs:138-145 *)
Definition r_type_mulhu (p : Rust.profile)  : option unit :=
  t1 <- r_type_test_instruction p (Rust.lit 1) (Rust.lit 3) (Rust.lit 51) (RD_UPDATE_MULHU, RAM_UPDATE_NONE, PC_UPDATE_NONE) ;;
  Some t1.

(** fhevm/src/instructions/r_type.rs:148-155 *)
Definition r_type_div (p : Rust.profile)  : option unit :=
  t1 <- r_type_test_instruction p (Rust.lit 1) (Rust.lit 4) (Rust.lit 51) (RD_UPDATE_DIV, RAM_UPDATE_NONE, PC_UPDATE_NONE) ;;
  Some t1.

(** fhevm/src/instructions/r_type.rs:158-165 *)
Definition r_type_divu (p : Rust.profile)  : option unit :=
  t1 <- r_type_test_instruction p (Rust.lit 1) (Rust.lit 5) (Rust.lit 51) (RD_UPDATE_DIVU, RAM_UPDATE_NONE, PC_UPDATE_NONE) ;;
  Some t1.

(** fhevm/src/instructions/r_type.rs:168-175 *)
Definition r_type_rem (p : Rust.profile)  : option unit :=
  t1 <- r_type_test_instruction p (Rust.lit 1) (Rust.lit 6) (Rust.lit 51) (RD_UPDATE_REM, RAM_UPDATE_NONE, PC_UPDATE_NONE) ;;
  Some t1.

(** fhevm/src/instructions/r_type.rs:178-185 *)
Definition r_type_remu (p : Rust.profile)  : option unit :=
  t1 <- r_type_test_instruction p (Rust.lit 1) (Rust.lit 7) (Rust.lit 51) (RD_UPDATE_REMU, RAM_UPDATE_NONE, PC_UPDATE_NONE) ;;
  Some t1.

(** fhevm/src/instructions/s_type.rs:29-36 *)
Definition s_type_imm_encoding (p : Rust.profile)  : option unit :=
  _ <- Rust.for_range (Rust.lit (t := Rust.I32) 0) (Rust.lit (t := Rust.I32) 12) (fun i _ => t1 <- Rust.shl p (Rust.lit 1) i ;;
    let immediate : u32 := t1 in
    let instruction : u32 := (Rust.lit 0) in
    t3 <- s_type_set_immediate p (mk_Instruction instruction) immediate ;;
    let t4 : u32 := (Instruction_0 t3) in
    let instruction := t4 in
    t5 <- instructions_sext p immediate (Rust.lit 11) ;;
    t6 <- s_type_get_immediate p instruction ;;
    if (Rust.eq t5 t6) then Some tt else None) tt ;;
  Some tt.

(** fhevm/src/instructions/s_type.rs:69-93 *)
Definition s_type_test_instruction (p : Rust.profile) (funct3 : u32) (op_code : u32) (op_id : (RD_UPDATE * RAM_UPDATE * PC_UPDATE)) : option unit :=
  let imm : u32 := (Rust.lit 2748) in
  let rs2 : u32 := (Rust.lit 27) in
  let rs1 : u32 := (Rust.lit 19) in
  let rd : u32 := (Rust.lit 0) in
  t1 <- Instruction_new p (Rust.cast Rust.U32 op_code) ;;
  let instruction : Instruction := t1 in
  t2 <- Instruction_set_imm p instruction imm ;;
  let instruction := t2 in
  t3 <- Instruction_set_funct3 p instruction funct3 ;;
  let instruction := t3 in
  t4 <- Instruction_set_rs2 p instruction rs2 ;;
  let instruction := t4 in
  t5 <- Instruction_set_rs1 p instruction rs1 ;;
  let instruction := t5 in
  t6 <- InstructionsParser_new p  ;;
  let m : InstructionsParser := t6 in
  t7 <- InstructionsParser_add p m instruction ;;
  let m := t7 in
  t8 <- InstructionsParser_assert_size p m (Rust.lit 1) ;;
  t9 <- instructions_sext p imm (Rust.lit 11) ;;
  t10 <- InstructionsParser_assert_instruction p m (Rust.lit 0) (Rust.cast Rust.I64 t9) (Rust.cast Rust.I64 rs2) (Rust.cast Rust.I64 rs1) (Rust.cast Rust.I64 rd) (Rust.cast Rust.I64 (RD_UPDATE_discriminant (let '(x0, x1, x2) := op_id in x0))) (Rust.cast Rust.I64 (RAM_UPDATE_discriminant (let '(x0, x1, x2) := op_id in x1))) (Rust.cast Rust.I64 (PC_UPDATE_discriminant (let '(x0, x1, x2) := op_id in x2))) ;;
  Some tt.

(** fhevm/src/instructions/s_type.rs:39-45 *)
Definition s_type_sb (p : Rust.profile)  : option unit :=
  t1 <- s_type_test_instruction p (Rust.lit 0) (Rust.lit 35) (RD_UPDATE_NONE, RAM_UPDATE_SB, PC_UPDATE_NONE) ;;
  Some t1.

(** fhevm/src/instructions/s_type.rs:48-54 *)
Definition s_type_sh (p : Rust.profile)  : option unit :=
  t1 <- s_type_test_instruction p (Rust.lit 1) (Rust.lit 35) (RD_UPDATE_NONE, RAM_UPDATE_SH, PC_UPDATE_NONE) ;;
  Some t1.

(** fhevm/src/instructions/s_type.rs:57-63 *)
Definition s_type_sw (p : Rust.profile)  : option unit :=
  t1 <- s_type_test_instruction p (Rust.lit 2) (Rust.lit 35) (RD_UPDATE_NONE, RAM_UPDATE_SW, PC_UPDATE_NONE) ;;
  Some t1.

(** fhevm/src/instructions/u_type.rs:21-28 *)
Definition u_type_imm_encoding (p : Rust.profile)  : option unit :=
  _ <- Rust.for_range (Rust.lit (t := Rust.I32) 0) (Rust.lit (t := Rust.I32) 20) (fun i _ => t1 <- Rust.shl p (Rust.lit 1) i ;;
    let immediate : u32 := t1 in
    let instruction : u32 := (Rust.lit 0) in
    t3 <- u_type_set_immediate p (mk_Instruction instruction) immediate ;;
    let t4 : u32 := (Instruction_0 t3) in
    let instruction := t4 in
    t5 <- u_type_get_immediate p instruction ;;
    if (Rust.eq immediate t5) then Some tt else None) tt ;;
  Some tt.

(** fhevm/src/instructions/u_type.rs:52-73 *)
Definition u_type_test_instruction (p : Rust.profile) (op_code : u32) (op_id : (RD_UPDATE * RAM_UPDATE * PC_UPDATE)) : option unit :=
  let imm : u32 := (Rust.lit 703710) in
  let rs2 : u32 := (Rust.lit 0) in
  let rs1 : u32 := (Rust.lit 0) in
  let rd : u32 := (Rust.lit 11) in
  t1 <- Instruction_new p (Rust.cast Rust.U32 op_code) ;;
  let instruction : Instruction := t1 in
  t2 <- Instruction_set_imm p instruction imm ;;
  let instruction := t2 in
  t3 <- Instruction_set_rd p instruction rd ;;
  let instruction := t3 in
  t4 <- InstructionsParser_new p  ;;
  let m : InstructionsParser := t4 in
  t5 <- InstructionsParser_add p m instruction ;;
  let m := t5 in
  t6 <- InstructionsParser_assert_size p m (Rust.lit 1) ;;
  t7 <- InstructionsParser_assert_instruction p m (Rust.lit 0) (Rust.cast Rust.I64 imm) (Rust.cast Rust.I64 rs2) (Rust.cast Rust.I64 rs1) (Rust.cast Rust.I64 rd) (Rust.cast Rust.I64 (RD_UPDATE_discriminant (let '(x0, x1, x2) := op_id in x0))) (Rust.cast Rust.I64 (RAM_UPDATE_discriminant (let '(x0, x1, x2) := op_id in x1))) (Rust.cast Rust.I64 (PC_UPDATE_discriminant (let '(x0, x1, x2) := op_id in x2))) ;;
  Some tt.

(** fhevm/src/instructions/u_type.rs:31-36 *)
Definition u_type_lui (p : Rust.profile)  : option unit :=
  t1 <- u_type_test_instruction p (Rust.lit 55) (RD_UPDATE_LUI, RAM_UPDATE_NONE, PC_UPDATE_NONE) ;;
  Some t1.

(** fhevm/src/instructions/u_type.rs:39-44 *)
Definition u_type_auipc (p : Rust.profile)  : option unit :=
  t1 <- u_type_test_instruction p (Rust.lit 23) (RD_UPDATE_AUIPC, RAM_UPDATE_NONE, PC_UPDATE_NONE) ;;
  Some t1.

(** fhevm/src/pc_update.rs:130-138 *)
Definition PCU_new (p : Rust.profile) (op_type : PC_UPDATE) : option PCU :=
  Some (mk_PCU op_type (Rust.lit 0) (Rust.lit 0) (Rust.lit 0) (Rust.lit 0)).

(** fhevm/src/pc_update.rs:140-143 *)
Definition PCU_u_rs1 (p : Rust.profile) (self : PCU) (rs1 : u32) : option PCU :=
  let self := (set_PCU_rs1 self rs1) in
  Some self.

(** fhevm/src/pc_update.rs:145-148 *)
Definition PCU_u_rs2 (p : Rust.profile) (self : PCU) (rs2 : u32) : option PCU :=
  let self := (set_PCU_rs2 self rs2) in
  Some self.

(** fhevm/src/pc_update.rs:150-153 *)
Definition PCU_u_pc (p : Rust.profile) (self : PCU) (pc : u32) : option PCU :=
  let self := (set_PCU_pc self pc) in
  Some self.

(** fhevm/src/pc_update.rs:155-159 *)
Definition PCU_u_imm (p : Rust.profile) (self : PCU) (imm : u32) : option PCU :=
  t1 <- Rust.shl p (Rust.lit 1) (Rust.lit (t := Rust.I32) 20) ;;
  t2 <- Rust.sub p t1 (Rust.lit 1) ;;
  let imm := (Rust.band imm t2) in
  let self := (set_PCU_imm self imm) in
  Some self.

(** fhevm/src/pc_update.rs:161-164 *)
Definition PCU_set_rs2_equal_rs1 (p : Rust.profile) (self : PCU) : option PCU :=
  let t1 : u32 := (PCU_rs1 self) in
  let self := (set_PCU_rs2 self t1) in
  Some self.

(** fhevm/src/pc_update.rs:166-174 *)
Definition PCU_set_rs1_lt_rs2 (p : Rust.profile) (self : PCU) : option PCU :=
  self <- (if (Rust.eq (PCU_rs1 self) (PCU_rs2 self))
    then (t1 <- Rust.add p (PCU_rs1 self) (Rust.lit 1) ;;
      let self := (set_PCU_rs1 self t1) in
      Some self)
    else (Some self)) ;;
  let tmp := (PCU_rs2 self) in
  let t2 : u32 := (RustIter.max (PCU_rs1 self) (PCU_rs2 self)) in
  let self := (set_PCU_rs2 self t2) in
  let t3 : u32 := (RustIter.min tmp (PCU_rs1 self)) in
  let self := (set_PCU_rs1 self t3) in
  Some self.

(** fhevm/src/pc_update.rs:176-181 *)
Definition PCU_set_rs1_gte_rs2 (p : Rust.profile) (self : PCU) : option PCU :=
  let tmp := (PCU_rs2 self) in
  let t1 : u32 := (RustIter.min (PCU_rs1 self) (PCU_rs2 self)) in
  let self := (set_PCU_rs2 self t1) in
  let t2 : u32 := (RustIter.max tmp (PCU_rs1 self)) in
  let self := (set_PCU_rs1 self t2) in
  Some self.

(** fhevm/src/pc_update.rs:183-191 *)
Definition PCU_set_rs1_lt_rs2_signed (p : Rust.profile) (self : PCU) : option PCU :=
  self <- (if (Rust.eq (PCU_rs1 self) (PCU_rs2 self))
    then (t1 <- Rust.add p (PCU_rs1 self) (Rust.lit 1) ;;
      let self := (set_PCU_rs1 self t1) in
      Some self)
    else (Some self)) ;;
  let tmp := (Rust.cast Rust.I32 (PCU_rs2 self)) in
  let t2 : u32 := (Rust.cast Rust.U32 (RustIter.max (Rust.cast Rust.I32 (PCU_rs1 self)) (Rust.cast Rust.I32 (PCU_rs2 self)))) in
  let self := (set_PCU_rs2 self t2) in
  let t3 : u32 := (Rust.cast Rust.U32 (RustIter.min tmp (Rust.cast Rust.I32 (PCU_rs1 self)))) in
  let self := (set_PCU_rs1 self t3) in
  Some self.

(** fhevm/src/pc_update.rs:193-198 *)
Definition PCU_set_rs1_gte_rs2_signed (p : Rust.profile) (self : PCU) : option PCU :=
  let tmp := (Rust.cast Rust.I32 (PCU_rs2 self)) in
  let t1 : u32 := (Rust.cast Rust.U32 (RustIter.min (Rust.cast Rust.I32 (PCU_rs1 self)) (Rust.cast Rust.I32 (PCU_rs2 self)))) in
  let self := (set_PCU_rs2 self t1) in
  let t2 : u32 := (Rust.cast Rust.U32 (RustIter.max tmp (Rust.cast Rust.I32 (PCU_rs1 self)))) in
  let self := (set_PCU_rs1 self t2) in
  Some self.

(** fhevm/src/pc_update.rs:200-204 *)
Definition PCU_expected_update (p : Rust.profile) (self : PCU) : option u32 :=
  t1 <- instructions_sext p (PCU_imm self) (Rust.lit 19) ;;
  t2 <- PC_UPDATE_eval_plain p (PCU_op_type self) t1 (PCU_rs1 self) (PCU_rs2 self) (PCU_pc self) ;;
  Some t2.
