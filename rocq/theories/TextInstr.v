(** * The instruction codec and the plain evaluation of operations, translated

    Generated by tools/gen_text.py from fhevm/src/instructions/b_type.rs, fhevm/src/instructions/i_type.rs, fhevm/src/instructions/j_type.rs, fhevm/src/instructions/s_type.rs, fhevm/src/instructions/u_type.rs, fhevm/src/instructions/mod.rs.
    Do not edit.  The operators are those of Rust.v. *)
Require Import ZArith List Bool.
From Verif Require Import Rust.
Import ListNotations.
Open Scope Z_scope.
Local Notation u8 := (Rust.int Rust.U8).
Local Notation u16 := (Rust.int Rust.U16).
Local Notation u32 := (Rust.int Rust.U32).
Local Notation u64 := (Rust.int Rust.U64).
Local Notation usize := (Rust.int Rust.USize).
Local Notation i32 := (Rust.int Rust.I32).
Local Notation i64 := (Rust.int Rust.I64).


(** fhevm/src/instructions/mod.rs:80-142 *)
Inductive RV32I :=
| RV32I_LUI
| RV32I_AUIPC
| RV32I_JAL
| RV32I_ADDI
| RV32I_SLTI
| RV32I_SLTIU
| RV32I_XORI
| RV32I_ORI
| RV32I_ANDI
| RV32I_SLLI
| RV32I_SRLI
| RV32I_SRAI
| RV32I_ADD
| RV32I_SUB
| RV32I_SLL
| RV32I_SLT
| RV32I_SLTU
| RV32I_XOR
| RV32I_SRL
| RV32I_SRA
| RV32I_OR
| RV32I_AND
| RV32I_LB
| RV32I_LH
| RV32I_LW
| RV32I_LBU
| RV32I_LHU
| RV32I_SB
| RV32I_SH
| RV32I_SW
| RV32I_BEQ
| RV32I_BNE
| RV32I_BLT
| RV32I_BGE
| RV32I_BLTU
| RV32I_BGEU
| RV32I_JALR.

Definition RV32I_discriminant (x : RV32I) : i64 :=
  match x with
  | RV32I_LUI => Rust.lit 55
  | RV32I_AUIPC => Rust.lit 23
  | RV32I_JAL => Rust.lit 111
  | RV32I_ADDI => Rust.lit 19
  | RV32I_SLTI => Rust.lit 8211
  | RV32I_SLTIU => Rust.lit 12307
  | RV32I_XORI => Rust.lit 16403
  | RV32I_ORI => Rust.lit 24595
  | RV32I_ANDI => Rust.lit 28691
  | RV32I_SLLI => Rust.lit 4115
  | RV32I_SRLI => Rust.lit 20499
  | RV32I_SRAI => Rust.lit 1073762323
  | RV32I_ADD => Rust.lit 51
  | RV32I_SUB => Rust.lit 1073741875
  | RV32I_SLL => Rust.lit 4147
  | RV32I_SLT => Rust.lit 8243
  | RV32I_SLTU => Rust.lit 12339
  | RV32I_XOR => Rust.lit 16435
  | RV32I_SRL => Rust.lit 20531
  | RV32I_SRA => Rust.lit 1073762355
  | RV32I_OR => Rust.lit 24627
  | RV32I_AND => Rust.lit 28723
  | RV32I_LB => Rust.lit 3
  | RV32I_LH => Rust.lit 4099
  | RV32I_LW => Rust.lit 8195
  | RV32I_LBU => Rust.lit 16387
  | RV32I_LHU => Rust.lit 20483
  | RV32I_SB => Rust.lit 35
  | RV32I_SH => Rust.lit 4131
  | RV32I_SW => Rust.lit 8227
  | RV32I_BEQ => Rust.lit 99
  | RV32I_BNE => Rust.lit 4195
  | RV32I_BLT => Rust.lit 16483
  | RV32I_BGE => Rust.lit 20579
  | RV32I_BLTU => Rust.lit 24675
  | RV32I_BGEU => Rust.lit 28771
  | RV32I_JALR => Rust.lit 103
  end.

(** fhevm/src/instructions/mod.rs:159-164 *)
Inductive RAM_UPDATE :=
| RAM_UPDATE_NONE
| RAM_UPDATE_SB
| RAM_UPDATE_SH
| RAM_UPDATE_SW.

Definition RAM_UPDATE_discriminant (x : RAM_UPDATE) : i64 :=
  match x with
  | RAM_UPDATE_NONE => Rust.lit 0
  | RAM_UPDATE_SB => Rust.lit 1
  | RAM_UPDATE_SH => Rust.lit 2
  | RAM_UPDATE_SW => Rust.lit 3
  end.

(** fhevm/src/instructions/mod.rs:202-212 *)
Inductive PC_UPDATE :=
| PC_UPDATE_NONE
| PC_UPDATE_JAL
| PC_UPDATE_JALR
| PC_UPDATE_BEQ
| PC_UPDATE_BNE
| PC_UPDATE_BLT
| PC_UPDATE_BGE
| PC_UPDATE_BLTU
| PC_UPDATE_BGEU.

Definition PC_UPDATE_discriminant (x : PC_UPDATE) : i64 :=
  match x with
  | PC_UPDATE_NONE => Rust.lit 1
  | PC_UPDATE_JAL => Rust.lit 3
  | PC_UPDATE_JALR => Rust.lit 7
  | PC_UPDATE_BEQ => Rust.lit 0
  | PC_UPDATE_BNE => Rust.lit 4
  | PC_UPDATE_BLT => Rust.lit 6
  | PC_UPDATE_BGE => Rust.lit 14
  | PC_UPDATE_BLTU => Rust.lit 2
  | PC_UPDATE_BGEU => Rust.lit 10
  end.

(** fhevm/src/instructions/mod.rs:284-322 *)
Inductive RD_UPDATE :=
| RD_UPDATE_NONE
| RD_UPDATE_LUI
| RD_UPDATE_AUIPC
| RD_UPDATE_ADDI
| RD_UPDATE_SLTI
| RD_UPDATE_SLTIU
| RD_UPDATE_XORI
| RD_UPDATE_ORI
| RD_UPDATE_ANDI
| RD_UPDATE_SLLI
| RD_UPDATE_SRLI
| RD_UPDATE_SRAI
| RD_UPDATE_ADD
| RD_UPDATE_SUB
| RD_UPDATE_SLL
| RD_UPDATE_SLT
| RD_UPDATE_SLTU
| RD_UPDATE_XOR
| RD_UPDATE_SRL
| RD_UPDATE_SRA
| RD_UPDATE_OR
| RD_UPDATE_AND
| RD_UPDATE_LB
| RD_UPDATE_LBU
| RD_UPDATE_LH
| RD_UPDATE_LHU
| RD_UPDATE_LW
| RD_UPDATE_JAL
| RD_UPDATE_JALR
| RD_UPDATE_MUL
| RD_UPDATE_MULH
| RD_UPDATE_MULHSU
| RD_UPDATE_MULHU
| RD_UPDATE_DIV
| RD_UPDATE_DIVU
| RD_UPDATE_REM
| RD_UPDATE_REMU.

Definition RD_UPDATE_discriminant (x : RD_UPDATE) : i64 :=
  match x with
  | RD_UPDATE_NONE => Rust.lit 0
  | RD_UPDATE_LUI => Rust.lit 1
  | RD_UPDATE_AUIPC => Rust.lit 2
  | RD_UPDATE_ADDI => Rust.lit 3
  | RD_UPDATE_SLTI => Rust.lit 4
  | RD_UPDATE_SLTIU => Rust.lit 5
  | RD_UPDATE_XORI => Rust.lit 6
  | RD_UPDATE_ORI => Rust.lit 7
  | RD_UPDATE_ANDI => Rust.lit 8
  | RD_UPDATE_SLLI => Rust.lit 9
  | RD_UPDATE_SRLI => Rust.lit 10
  | RD_UPDATE_SRAI => Rust.lit 11
  | RD_UPDATE_ADD => Rust.lit 12
  | RD_UPDATE_SUB => Rust.lit 13
  | RD_UPDATE_SLL => Rust.lit 14
  | RD_UPDATE_SLT => Rust.lit 15
  | RD_UPDATE_SLTU => Rust.lit 16
  | RD_UPDATE_XOR => Rust.lit 17
  | RD_UPDATE_SRL => Rust.lit 18
  | RD_UPDATE_SRA => Rust.lit 19
  | RD_UPDATE_OR => Rust.lit 20
  | RD_UPDATE_AND => Rust.lit 21
  | RD_UPDATE_LB => Rust.lit 22
  | RD_UPDATE_LBU => Rust.lit 23
  | RD_UPDATE_LH => Rust.lit 24
  | RD_UPDATE_LHU => Rust.lit 25
  | RD_UPDATE_LW => Rust.lit 26
  | RD_UPDATE_JAL => Rust.lit 27
  | RD_UPDATE_JALR => Rust.lit 28
  | RD_UPDATE_MUL => Rust.lit 29
  | RD_UPDATE_MULH => Rust.lit 30
  | RD_UPDATE_MULHSU => Rust.lit 31
  | RD_UPDATE_MULHU => Rust.lit 32
  | RD_UPDATE_DIV => Rust.lit 33
  | RD_UPDATE_DIVU => Rust.lit 34
  | RD_UPDATE_REM => Rust.lit 35
  | RD_UPDATE_REMU => Rust.lit 36
  end.

(** fhevm/src/instructions/mod.rs:602-602 *)
Record Instruction := mk_Instruction { Instruction_0 : u32 }.

(** fhevm/src/instructions/mod.rs:634-642 *)
Inductive Type_ :=
| Type_NONE
| Type_R
| Type_I
| Type_S
| Type_B
| Type_U
| Type_J.

Definition Type_discriminant (x : Type_) : i64 :=
  match x with
  | Type_NONE => Rust.lit 0
  | Type_R => Rust.lit 1
  | Type_I => Rust.lit 2
  | Type_S => Rust.lit 3
  | Type_B => Rust.lit 4
  | Type_U => Rust.lit 5
  | Type_J => Rust.lit 6
  end.

(** fhevm/src/instructions/mod.rs:494-498 *)
Record InstructionsParser := mk_InstructionsParser {
  InstructionsParser_imm : (list i64);
  InstructionsParser_instructions : (list i64);
  InstructionsParser_instructions_raw : (list Instruction) }.

Definition set_InstructionsParser_imm (s : InstructionsParser) (x : (list i64)) : InstructionsParser :=
  mk_InstructionsParser x (InstructionsParser_instructions s) (InstructionsParser_instructions_raw s).

Definition set_InstructionsParser_instructions (s : InstructionsParser) (x : (list i64)) : InstructionsParser :=
  mk_InstructionsParser (InstructionsParser_imm s) x (InstructionsParser_instructions_raw s).

Definition set_InstructionsParser_instructions_raw (s : InstructionsParser) (x : (list Instruction)) : InstructionsParser :=
  mk_InstructionsParser (InstructionsParser_imm s) (InstructionsParser_instructions s) x.

(** fhevm/src/instructions/b_type.rs:1-1 *)
Definition b_type_IMMMASK12 : u32 := Rust.lit 2048.

(** fhevm/src/instructions/b_type.rs:2-2 *)
Definition b_type_IMMMASK11 : u32 := Rust.lit 1024.

(** fhevm/src/instructions/b_type.rs:3-3 *)
Definition b_type_IMMMASK10 : u32 := Rust.lit 1008.

(** fhevm/src/instructions/b_type.rs:4-4 *)
Definition b_type_IMMMASK4 : u32 := Rust.lit 15.

(** fhevm/src/instructions/b_type.rs:5-5 *)
Definition b_type_OPMASK : u32 := Rust.lit 33550463.

(** fhevm/src/instructions/b_type.rs:6-6 *)
Definition b_type_IMMSEXTMASK : u32 := Rust.lit 4294965248.

(** fhevm/src/instructions/b_type.rs:8-8 *)
Definition b_type_IMMSHIFT12 : u32 := Rust.lit 20.

(** fhevm/src/instructions/b_type.rs:9-9 *)
Definition b_type_IMMSHIFT11 : u32 := Rust.lit 3.

(** fhevm/src/instructions/b_type.rs:10-10 *)
Definition b_type_IMMSHIFT10 : u32 := Rust.lit 21.

(** fhevm/src/instructions/b_type.rs:11-11 *)
Definition b_type_IMMSHIFT4 : u32 := Rust.lit 8.

(** fhevm/src/instructions/i_type.rs:1-1 *)
Definition i_type_IMMSHIFT : u32 := Rust.lit 20.

(** fhevm/src/instructions/i_type.rs:2-2 *)
Definition i_type_OPMASK : u32 := Rust.lit 1048575.

(** fhevm/src/instructions/i_type.rs:3-3 *)
Definition i_type_IMMSEXTMASK : u32 := Rust.lit 4294963200.

(** fhevm/src/instructions/j_type.rs:1-1 *)
Definition j_type_IMMMASK20 : u32 := Rust.lit 1048576.

(** fhevm/src/instructions/j_type.rs:2-2 *)
Definition j_type_IMMMASK19 : u32 := Rust.lit 1044480.

(** fhevm/src/instructions/j_type.rs:3-3 *)
Definition j_type_IMMMASK11 : u32 := Rust.lit 2048.

(** fhevm/src/instructions/j_type.rs:4-4 *)
Definition j_type_IMMMASK10 : u32 := Rust.lit 2046.

(** fhevm/src/instructions/j_type.rs:5-5 *)
Definition j_type_OPMASK : u32 := Rust.lit 4095.

(** fhevm/src/instructions/j_type.rs:6-6 *)
Definition j_type_IMMSEXTMASK : u32 := Rust.lit 4293918720.

(** fhevm/src/instructions/j_type.rs:8-8 *)
Definition j_type_IMMSHIFT20 : u32 := Rust.lit 11.

(** fhevm/src/instructions/j_type.rs:9-9 *)
Definition j_type_IMMSHIFT19 : u32 := Rust.lit 0.

(** fhevm/src/instructions/j_type.rs:10-10 *)
Definition j_type_IMMSHIFT11 : u32 := Rust.lit 9.

(** fhevm/src/instructions/j_type.rs:11-11 *)
Definition j_type_IMMSHIFT10 : u32 := Rust.lit 20.

(** fhevm/src/instructions/s_type.rs:1-1 *)
Definition s_type_IMMMASK11 : u32 := Rust.lit 4064.

(** fhevm/src/instructions/s_type.rs:2-2 *)
Definition s_type_IMMMASK4 : u32 := Rust.lit 31.

(** fhevm/src/instructions/s_type.rs:3-3 *)
Definition s_type_OPMASK : u32 := Rust.lit 33550463.

(** fhevm/src/instructions/s_type.rs:4-4 *)
Definition s_type_IMMSHIFT11 : u32 := Rust.lit 20.

(** fhevm/src/instructions/s_type.rs:5-5 *)
Definition s_type_IMMSHIFT4 : u32 := Rust.lit 7.

(** fhevm/src/instructions/s_type.rs:6-6 *)
Definition s_type_IMMSEXTMASK : u32 := Rust.lit 4294963200.

(** fhevm/src/instructions/u_type.rs:1-1 *)
Definition u_type_OPMASK : u32 := Rust.lit 4095.

(** fhevm/src/instructions/u_type.rs:2-2 *)
Definition u_type_IMMMASK : u32 := Rust.lit 4294963200.

(** fhevm/src/instructions/mod.rs:192-197 *)
Definition instructions_RAM_UPDATE_OP_LIST : (list RAM_UPDATE) := [RAM_UPDATE_NONE; RAM_UPDATE_SB; RAM_UPDATE_SH; RAM_UPDATE_SW].

(** fhevm/src/instructions/mod.rs:270-280 *)
Definition instructions_PC_UPDATE_OP_LIST : (list PC_UPDATE) := [PC_UPDATE_NONE; PC_UPDATE_BEQ; PC_UPDATE_BGE; PC_UPDATE_BGEU; PC_UPDATE_BLT; PC_UPDATE_BLTU; PC_UPDATE_BNE; PC_UPDATE_JAL; PC_UPDATE_JALR].

(** fhevm/src/instructions/mod.rs:422-460 *)
Definition instructions_RD_UPDATE_RV32M_OP_LIST : (list RD_UPDATE) := [RD_UPDATE_NONE; RD_UPDATE_LUI; RD_UPDATE_AUIPC; RD_UPDATE_ADDI; RD_UPDATE_SLTI; RD_UPDATE_SLTIU; RD_UPDATE_XORI; RD_UPDATE_ORI; RD_UPDATE_ANDI; RD_UPDATE_SLLI; RD_UPDATE_SRLI; RD_UPDATE_SRAI; RD_UPDATE_ADD; RD_UPDATE_SUB; RD_UPDATE_SLL; RD_UPDATE_SLT; RD_UPDATE_SLTU; RD_UPDATE_XOR; RD_UPDATE_SRL; RD_UPDATE_SRA; RD_UPDATE_OR; RD_UPDATE_AND; RD_UPDATE_LB; RD_UPDATE_LBU; RD_UPDATE_LH; RD_UPDATE_LHU; RD_UPDATE_LW; RD_UPDATE_JAL; RD_UPDATE_JALR; RD_UPDATE_MUL; RD_UPDATE_MULH; RD_UPDATE_MULHSU; RD_UPDATE_MULHU; RD_UPDATE_DIV; RD_UPDATE_DIVU; RD_UPDATE_REM; RD_UPDATE_REMU].

(** fhevm/src/instructions/mod.rs:462-492 *)
Definition instructions_RD_UPDATE_RV32I_OP_LIST : (list RD_UPDATE) := [RD_UPDATE_NONE; RD_UPDATE_LUI; RD_UPDATE_AUIPC; RD_UPDATE_ADDI; RD_UPDATE_SLTI; RD_UPDATE_SLTIU; RD_UPDATE_XORI; RD_UPDATE_ORI; RD_UPDATE_ANDI; RD_UPDATE_SLLI; RD_UPDATE_SRLI; RD_UPDATE_SRAI; RD_UPDATE_ADD; RD_UPDATE_SUB; RD_UPDATE_SLL; RD_UPDATE_SLT; RD_UPDATE_SLTU; RD_UPDATE_XOR; RD_UPDATE_SRL; RD_UPDATE_SRA; RD_UPDATE_OR; RD_UPDATE_AND; RD_UPDATE_LB; RD_UPDATE_LBU; RD_UPDATE_LH; RD_UPDATE_LHU; RD_UPDATE_LW; RD_UPDATE_JAL; RD_UPDATE_JALR].

(** fhevm/src/instructions/mod.rs:617-617 *)
Definition instructions_RS1MASK : u32 := Rust.lit 1015808.

(** fhevm/src/instructions/mod.rs:618-618 *)
Definition instructions_RS2MASK : u32 := Rust.lit 32505856.

(** fhevm/src/instructions/mod.rs:619-619 *)
Definition instructions_FUNCT3MASK : u32 := Rust.lit 28672.

(** fhevm/src/instructions/mod.rs:620-620 *)
Definition instructions_FUNCT7MASK : u32 := Rust.lit 4261412864.

(** fhevm/src/instructions/mod.rs:621-621 *)
Definition instructions_SHAMTMASK : u32 := Rust.lit 32505856.

(** fhevm/src/instructions/mod.rs:622-622 *)
Definition instructions_RDMASK : u32 := Rust.lit 3968.

(** fhevm/src/instructions/mod.rs:623-623 *)
Definition instructions_OPCODEMASK : u32 := Rust.lit 127.

(** fhevm/src/instructions/mod.rs:625-625 *)
Definition instructions_RS1SHIFT : u32 := Rust.lit 15.

(** fhevm/src/instructions/mod.rs:626-626 *)
Definition instructions_RS2SHIFT : u32 := Rust.lit 20.

(** fhevm/src/instructions/mod.rs:627-627 *)
Definition instructions_FUNCT3SHIFT : u32 := Rust.lit 12.

(** fhevm/src/instructions/mod.rs:628-628 *)
Definition instructions_FUNCT7SHIFT : u32 := Rust.lit 25.

(** fhevm/src/instructions/mod.rs:629-629 *)
Definition instructions_SHAMTSHIFT : u32 := Rust.lit 20.

(** fhevm/src/instructions/mod.rs:630-630 *)
Definition instructions_RDSHIFT : u32 := Rust.lit 7.

(** fhevm/src/instructions/mod.rs:631-631 *)
Definition instructions_OPCODESHIFT : u32 := Rust.lit 0.

(** fhevm/src/instructions/b_type.rs:14-22 *)
Definition b_type_set_immediate (p : Rust.profile) (instruction : Instruction) (immediate : u32) : option Instruction :=
  t1 <- Rust.shr p immediate (Rust.lit (t := Rust.I32) 1) ;;
  let imm_shift : u32 := t1 in
  t2 <- Rust.shl p (Rust.band imm_shift b_type_IMMMASK12) b_type_IMMSHIFT12 ;;
  t3 <- Rust.shr p (Rust.band imm_shift b_type_IMMMASK11) b_type_IMMSHIFT11 ;;
  t4 <- Rust.shl p (Rust.band imm_shift b_type_IMMMASK10) b_type_IMMSHIFT10 ;;
  t5 <- Rust.shl p (Rust.band imm_shift b_type_IMMMASK4) b_type_IMMSHIFT4 ;;
  let t6 := (Rust.bor (Rust.bor (Rust.bor (Rust.bor (Rust.band (Instruction_0 instruction) b_type_OPMASK) t2) t3) t4) t5) in
  let instruction := (mk_Instruction t6) in
  Some instruction.

(** fhevm/src/instructions/b_type.rs:25-32 *)
Definition b_type_get_immediate (p : Rust.profile) (instruction : u32) : option u32 :=
  t1 <- Rust.shr p instruction b_type_IMMSHIFT12 ;;
  t2 <- Rust.shl p instruction b_type_IMMSHIFT11 ;;
  t3 <- Rust.shr p instruction b_type_IMMSHIFT10 ;;
  t4 <- Rust.shr p instruction b_type_IMMSHIFT4 ;;
  t5 <- Rust.shr p instruction (Rust.lit (t := Rust.I32) 31) ;;
  t6 <- Rust.mul p (Rust.band t5 (Rust.lit 1)) b_type_IMMSEXTMASK ;;
  t7 <- Rust.shl p (Rust.bor (Rust.bor (Rust.bor (Rust.bor (Rust.band t1 b_type_IMMMASK12) (Rust.band t2 b_type_IMMMASK11)) (Rust.band t3 b_type_IMMMASK10)) (Rust.band t4 b_type_IMMMASK4)) t6) (Rust.lit (t := Rust.I32) 1) ;;
  Some t7.

(** fhevm/src/instructions/i_type.rs:6-9 *)
Definition i_type_set_immediate (p : Rust.profile) (instruction : Instruction) (immediate : u32) : option Instruction :=
  t1 <- Rust.shl p immediate i_type_IMMSHIFT ;;
  let t2 := (Rust.bor (Rust.band (Instruction_0 instruction) i_type_OPMASK) t1) in
  let instruction := (mk_Instruction t2) in
  Some instruction.

(** fhevm/src/instructions/i_type.rs:12-14 *)
Definition i_type_get_immediate (p : Rust.profile) (instruction : u32) : option u32 :=
  t1 <- Rust.shr p instruction i_type_IMMSHIFT ;;
  t2 <- Rust.shr p instruction (Rust.lit (t := Rust.I32) 31) ;;
  t3 <- Rust.mul p (Rust.band t2 (Rust.lit 1)) i_type_IMMSEXTMASK ;;
  Some (Rust.bor t1 t3).

(** fhevm/src/instructions/j_type.rs:14-21 *)
Definition j_type_set_immediate (p : Rust.profile) (instruction : Instruction) (immediate : u32) : option Instruction :=
  t1 <- Rust.shl p (Rust.band immediate j_type_IMMMASK20) j_type_IMMSHIFT20 ;;
  t2 <- Rust.shl p (Rust.band immediate j_type_IMMMASK19) j_type_IMMSHIFT19 ;;
  t3 <- Rust.shl p (Rust.band immediate j_type_IMMMASK11) j_type_IMMSHIFT11 ;;
  t4 <- Rust.shl p (Rust.band immediate j_type_IMMMASK10) j_type_IMMSHIFT10 ;;
  let t5 := (Rust.bor (Rust.bor (Rust.bor (Rust.bor (Rust.band (Instruction_0 instruction) j_type_OPMASK) t1) t2) t3) t4) in
  let instruction := (mk_Instruction t5) in
  Some instruction.

(** fhevm/src/instructions/j_type.rs:24-30 *)
Definition j_type_get_immediate (p : Rust.profile) (instruction : u32) : option u32 :=
  t1 <- Rust.shr p instruction j_type_IMMSHIFT20 ;;
  t2 <- Rust.shr p instruction j_type_IMMSHIFT19 ;;
  t3 <- Rust.shr p instruction j_type_IMMSHIFT11 ;;
  t4 <- Rust.shr p instruction j_type_IMMSHIFT10 ;;
  t5 <- Rust.shr p instruction (Rust.lit (t := Rust.I32) 31) ;;
  t6 <- Rust.mul p (Rust.band t5 (Rust.lit 1)) j_type_IMMSEXTMASK ;;
  Some (Rust.bor (Rust.bor (Rust.bor (Rust.bor (Rust.band t1 j_type_IMMMASK20) (Rust.band t2 j_type_IMMMASK19)) (Rust.band t3 j_type_IMMMASK11)) (Rust.band t4 j_type_IMMMASK10)) t6).

(** fhevm/src/instructions/s_type.rs:9-14 *)
Definition s_type_set_immediate (p : Rust.profile) (instruction : Instruction) (immediate : u32) : option Instruction :=
  t1 <- Rust.shl p (Rust.band immediate s_type_IMMMASK11) s_type_IMMSHIFT11 ;;
  t2 <- Rust.shl p (Rust.band immediate s_type_IMMMASK4) s_type_IMMSHIFT4 ;;
  let t3 := (Rust.bor (Rust.bor (Rust.band (Instruction_0 instruction) s_type_OPMASK) t1) t2) in
  let instruction := (mk_Instruction t3) in
  Some instruction.

(** fhevm/src/instructions/s_type.rs:17-21 *)
Definition s_type_get_immediate (p : Rust.profile) (instruction : u32) : option u32 :=
  t1 <- Rust.shr p instruction s_type_IMMSHIFT11 ;;
  t2 <- Rust.shr p instruction s_type_IMMSHIFT4 ;;
  t3 <- Rust.shr p instruction (Rust.lit (t := Rust.I32) 31) ;;
  t4 <- Rust.mul p (Rust.band t3 (Rust.lit 1)) s_type_IMMSEXTMASK ;;
  Some (Rust.bor (Rust.bor (Rust.band t1 s_type_IMMMASK11) (Rust.band t2 s_type_IMMMASK4)) t4).

(** fhevm/src/instructions/u_type.rs:5-8 *)
Definition u_type_set_immediate (p : Rust.profile) (instruction : Instruction) (immediate : u32) : option Instruction :=
  t1 <- Rust.shl p immediate (Rust.lit (t := Rust.I32) 12) ;;
  let t2 := (Rust.bor (Rust.band (Instruction_0 instruction) u_type_OPMASK) (Rust.band t1 u_type_IMMMASK)) in
  let instruction := (mk_Instruction t2) in
  Some instruction.

(** fhevm/src/instructions/u_type.rs:11-13 *)
Definition u_type_get_immediate (p : Rust.profile) (instruction : u32) : option u32 :=
  t1 <- Rust.shr p (Rust.band instruction u_type_IMMMASK) (Rust.lit (t := Rust.I32) 12) ;;
  Some t1.

(** fhevm/src/instructions/mod.rs:146-148 *)
Definition RV32I_new (p : Rust.profile) (self : RV32I) : option Instruction :=
  Some (mk_Instruction (Rust.cast Rust.U32 (RV32I_discriminant self))).

(** fhevm/src/instructions/mod.rs:151-154 *)
Definition instructions_sext (p : Rust.profile) (x : u32) (bits : u32) : option u32 :=
  t1 <- Rust.sub p (Rust.bits_of Rust.U32) bits ;;
  t2 <- Rust.shl p x t1 ;;
  t3 <- Rust.sub p (Rust.bits_of Rust.U32) bits ;;
  t4 <- Rust.shr p t2 t3 ;;
  t5 <- Rust.shr p x bits ;;
  t6 <- Rust.shl p (Rust.lit 4294967295) bits ;;
  t7 <- Rust.mul p (Rust.band t5 (Rust.lit 1)) (Rust.band (Rust.lit 4294967295) t6) ;;
  Some (Rust.bor t4 t7).

(** fhevm/src/instructions/mod.rs:167-169 *)
Definition RAM_UPDATE_id (p : Rust.profile) (self : RAM_UPDATE) : option u32 :=
  Some (Rust.cast Rust.U32 (RAM_UPDATE_discriminant self)).

(** fhevm/src/instructions/mod.rs:171-189 *)
Definition RAM_UPDATE_eval_plain (p : Rust.profile) (self : RAM_UPDATE) (rs2 : u32) (ram : u32) (offset : u32) : option u32 :=
  match self with
  | RAM_UPDATE_NONE => Some ram
  | RAM_UPDATE_SW => Some rs2
  | RAM_UPDATE_SB => if ((Rust.eq offset (Rust.lit 0))) then (Some (Rust.bor (Rust.band rs2 (Rust.lit 255)) (Rust.band ram (Rust.lit 4294967040))))
  else if ((Rust.eq offset (Rust.lit 1))) then (t1 <- Rust.shl p (Rust.band rs2 (Rust.lit 255)) (Rust.lit (t := Rust.I32) 8) ;;
    Some (Rust.bor t1 (Rust.band ram (Rust.lit 4294902015))))
  else if ((Rust.eq offset (Rust.lit 2))) then (t2 <- Rust.shl p (Rust.band rs2 (Rust.lit 255)) (Rust.lit (t := Rust.I32) 16) ;;
    Some (Rust.bor t2 (Rust.band ram (Rust.lit 4278255615))))
  else if ((Rust.eq offset (Rust.lit 3))) then (t3 <- Rust.shl p (Rust.band rs2 (Rust.lit 255)) (Rust.lit (t := Rust.I32) 24) ;;
    Some (Rust.bor t3 (Rust.band ram (Rust.lit 16777215))))
  else (Some (Rust.lit 0))
  | RAM_UPDATE_SH => if ((Rust.eq offset (Rust.lit 0))) then (Some (Rust.bor (Rust.band rs2 (Rust.lit 65535)) (Rust.band ram (Rust.lit 4294901760))))
  else if ((Rust.eq offset (Rust.lit 2))) then (t4 <- Rust.shl p (Rust.band rs2 (Rust.lit 65535)) (Rust.lit (t := Rust.I32) 16) ;;
    Some (Rust.bor t4 (Rust.band ram (Rust.lit 65535))))
  else (Some (Rust.lit 0))
  end.

(** fhevm/src/instructions/mod.rs:215-217 *)
Definition PC_UPDATE_id (p : Rust.profile) (self : PC_UPDATE) : option u32 :=
  Some (Rust.cast Rust.U32 (PC_UPDATE_discriminant self)).

(** fhevm/src/instructions/mod.rs:219-267 *)
Definition PC_UPDATE_eval_plain (p : Rust.profile) (self : PC_UPDATE) (imm : u32) (rs1 : u32) (rs2 : u32) (pc : u32) : option u32 :=
  match self with
  | PC_UPDATE_NONE => Some (Rust.wrapping_add pc (Rust.lit 4))
  | PC_UPDATE_BEQ => if (Rust.eq rs1 rs2)
  then (Some (Rust.wrapping_add pc imm))
  else (Some (Rust.wrapping_add pc (Rust.lit 4)))
  | PC_UPDATE_BGE => if (Rust.ge (Rust.cast Rust.I32 rs1) (Rust.cast Rust.I32 rs2))
  then (Some (Rust.wrapping_add pc imm))
  else (Some (Rust.wrapping_add pc (Rust.lit 4)))
  | PC_UPDATE_BGEU => if (Rust.ge rs1 rs2)
  then (Some (Rust.wrapping_add pc imm))
  else (Some (Rust.wrapping_add pc (Rust.lit 4)))
  | PC_UPDATE_BLT => if (Rust.lt (Rust.cast Rust.I32 rs1) (Rust.cast Rust.I32 rs2))
  then (Some (Rust.wrapping_add pc imm))
  else (Some (Rust.wrapping_add pc (Rust.lit 4)))
  | PC_UPDATE_BLTU => if (Rust.lt rs1 rs2)
  then (Some (Rust.wrapping_add pc imm))
  else (Some (Rust.wrapping_add pc (Rust.lit 4)))
  | PC_UPDATE_BNE => if (Rust.ne rs1 rs2)
  then (Some (Rust.wrapping_add pc imm))
  else (Some (Rust.wrapping_add pc (Rust.lit 4)))
  | PC_UPDATE_JAL => Some (Rust.wrapping_add pc imm)
  | PC_UPDATE_JALR => Some (Rust.band (Rust.wrapping_add rs1 imm) (Rust.lit 4294967294))
  end.

(** fhevm/src/instructions/mod.rs:325-327 *)
Definition RD_UPDATE_id (p : Rust.profile) (self : RD_UPDATE) : option u32 :=
  Some (Rust.cast Rust.U32 (RD_UPDATE_discriminant self)).

(** fhevm/src/instructions/mod.rs:329-418 *)
Definition RD_UPDATE_eval_plain (p : Rust.profile) (self : RD_UPDATE) (imm : u32) (rs1 : u32) (rs2 : u32) (pc : u32) (ram : u32) : option u32 :=
  match self with
  | RD_UPDATE_NONE => Some (Rust.lit 0)
  | RD_UPDATE_LUI => Some (Rust.wrapping_shl imm (Rust.lit 12))
  | RD_UPDATE_AUIPC => Some (Rust.wrapping_add pc (Rust.wrapping_shl imm (Rust.lit 12)))
  | RD_UPDATE_ADDI => Some (Rust.wrapping_add rs1 imm)
  | RD_UPDATE_SLTI => if (Rust.lt (Rust.cast Rust.I32 rs1) (Rust.cast Rust.I32 imm))
  then (Some (Rust.lit 1))
  else (Some (Rust.lit 0))
  | RD_UPDATE_SLTIU => if (Rust.lt rs1 imm)
  then (Some (Rust.lit 1))
  else (Some (Rust.lit 0))
  | RD_UPDATE_XORI => Some (Rust.bxor rs1 imm)
  | RD_UPDATE_ORI => Some (Rust.bor rs1 imm)
  | RD_UPDATE_ANDI => Some (Rust.band rs1 imm)
  | RD_UPDATE_SLLI => Some (Rust.wrapping_shl rs1 (Rust.band imm (Rust.lit 31)))
  | RD_UPDATE_SRLI => Some (Rust.wrapping_shr rs1 (Rust.band imm (Rust.lit 31)))
  | RD_UPDATE_SRAI => Some (Rust.cast Rust.U32 (Rust.wrapping_shr (Rust.cast Rust.I32 rs1) (Rust.band imm (Rust.lit 31))))
  | RD_UPDATE_ADD => Some (Rust.wrapping_add rs1 rs2)
  | RD_UPDATE_SUB => Some (Rust.wrapping_sub rs1 rs2)
  | RD_UPDATE_SLL => Some (Rust.wrapping_shl rs1 (Rust.band rs2 (Rust.lit 31)))
  | RD_UPDATE_SLT => if (Rust.lt (Rust.cast Rust.I32 rs1) (Rust.cast Rust.I32 rs2))
  then (Some (Rust.lit 1))
  else (Some (Rust.lit 0))
  | RD_UPDATE_SLTU => if (Rust.lt rs1 rs2)
  then (Some (Rust.lit 1))
  else (Some (Rust.lit 0))
  | RD_UPDATE_XOR => Some (Rust.bxor rs1 rs2)
  | RD_UPDATE_SRL => t1 <- Rust.shr p rs1 (Rust.band rs2 (Rust.lit 31)) ;;
  Some t1
  | RD_UPDATE_SRA => t2 <- Rust.shr p (Rust.cast Rust.I32 rs1) (Rust.band rs2 (Rust.lit 31)) ;;
  Some (Rust.cast Rust.U32 t2)
  | RD_UPDATE_OR => Some (Rust.bor rs1 rs2)
  | RD_UPDATE_AND => Some (Rust.band rs1 rs2)
  | RD_UPDATE_LB => t3 <- instructions_sext p (Rust.band ram (Rust.lit 255)) (Rust.lit 7) ;;
  Some t3
  | RD_UPDATE_LH => t4 <- instructions_sext p (Rust.band ram (Rust.lit 65535)) (Rust.lit 15) ;;
  Some t4
  | RD_UPDATE_LW => Some ram
  | RD_UPDATE_LBU => Some (Rust.band ram (Rust.lit 255))
  | RD_UPDATE_LHU => Some (Rust.band ram (Rust.lit 65535))
  | RD_UPDATE_JAL => Some (Rust.wrapping_add pc (Rust.lit 4))
  | RD_UPDATE_JALR => Some (Rust.wrapping_add pc (Rust.lit 4))
  | RD_UPDATE_MUL => Some (Rust.wrapping_mul rs1 rs2)
  | RD_UPDATE_MULH => t5 <- Rust.shr p (Rust.wrapping_mul (Rust.cast Rust.I64 (Rust.cast Rust.I32 rs1)) (Rust.cast Rust.I64 (Rust.cast Rust.I32 rs2))) (Rust.lit (t := Rust.I32) 32) ;;
  Some (Rust.cast Rust.U32 t5)
  | RD_UPDATE_MULHSU => t6 <- Rust.shr p (Rust.wrapping_mul (Rust.cast Rust.I64 (Rust.cast Rust.I32 rs1)) (Rust.cast Rust.I64 rs2)) (Rust.lit (t := Rust.I32) 32) ;;
  Some (Rust.cast Rust.U32 t6)
  | RD_UPDATE_MULHU => t7 <- Rust.shr p (Rust.wrapping_mul (Rust.cast Rust.I64 rs1) (Rust.cast Rust.I64 rs2)) (Rust.lit (t := Rust.I32) 32) ;;
  Some (Rust.cast Rust.U32 t7)
  | RD_UPDATE_DIV => if (Rust.eq rs2 (Rust.lit 0))
  then (Some (Rust.cast Rust.U32 (Rust.max_of Rust.I32)))
  else (if ((Rust.eq (Rust.cast Rust.I32 rs1) (Rust.min_of Rust.I32)) && (Rust.eq (Rust.cast Rust.I32 rs2) (Rust.lit (-1))))
    then (Some (Rust.cast Rust.U32 (Rust.min_of Rust.I32)))
    else (t8 <- Rust.div (Rust.cast Rust.I32 rs1) (Rust.cast Rust.I32 rs2) ;;
      Some (Rust.cast Rust.U32 t8)))
  | RD_UPDATE_DIVU => if (Rust.eq rs2 (Rust.lit 0))
  then (Some rs1)
  else (t9 <- Rust.div rs1 rs2 ;;
    Some t9)
  | RD_UPDATE_REM => if (Rust.eq rs1 (Rust.lit 0))
  then (Some rs1)
  else (if ((Rust.eq (Rust.cast Rust.I32 rs1) (Rust.min_of Rust.I32)) && (Rust.eq (Rust.cast Rust.I32 rs2) (Rust.lit (-1))))
    then (Some (Rust.lit 0))
    else (t10 <- Rust.rem (Rust.cast Rust.I32 rs1) (Rust.cast Rust.I32 rs2) ;;
      Some (Rust.cast Rust.U32 t10)))
  | RD_UPDATE_REMU => if (Rust.eq rs2 (Rust.lit 0))
  then (Some rs1)
  else (t11 <- Rust.rem rs1 rs2 ;;
    Some t11)
  end.

(** fhevm/src/instructions/mod.rs:501-507 *)
Definition InstructionsParser_new (p : Rust.profile)  : option InstructionsParser :=
  Some (mk_InstructionsParser [] [] []).

(** fhevm/src/instructions/mod.rs:860-862 *)
Definition Instruction_get_opcode (p : Rust.profile) (self : Instruction) : option u32 :=
  t1 <- Rust.shr p (Rust.band (Instruction_0 self) instructions_OPCODEMASK) instructions_OPCODESHIFT ;;
  Some (Rust.cast Rust.U32 t1).

(** fhevm/src/instructions/mod.rs:651-663 *)
Definition Instruction_get_type (p : Rust.profile) (self : Instruction) : option Type_ :=
  t1 <- Instruction_get_opcode p self ;;
  let opcode : u32 := t1 in
  if ((Rust.eq opcode (Rust.lit 55))) || ((Rust.eq opcode (Rust.lit 23))) then (Some Type_U)
  else if ((Rust.eq opcode (Rust.lit 19))) || ((Rust.eq opcode (Rust.lit 3))) || ((Rust.eq opcode (Rust.lit 103))) then (Some Type_I)
  else if ((Rust.eq opcode (Rust.lit 51))) then (Some Type_R)
  else if ((Rust.eq opcode (Rust.lit 35))) then (Some Type_S)
  else if ((Rust.eq opcode (Rust.lit 111))) then (Some Type_J)
  else if ((Rust.eq opcode (Rust.lit 99))) then (Some Type_B)
  else if ((Rust.eq opcode (Rust.lit 115))) then (Some Type_NONE)
  else (None).

(** fhevm/src/instructions/mod.rs:761-773 *)
Definition Instruction_get_rs2 (p : Rust.profile) (self : Instruction) : option u32 :=
  _ <- (if Rust.debug_assertions p then (t1 <- Instruction_get_type p self ;;
      match t1 with
      | Type_R | Type_S | Type_B => Some tt
      | _ => None
      end) else Some tt) ;;
  t2 <- Rust.shr p (Rust.band (Instruction_0 self) instructions_RS2MASK) instructions_RS2SHIFT ;;
  Some (Rust.cast Rust.U32 t2).

(** fhevm/src/instructions/mod.rs:730-742 *)
Definition Instruction_get_rs1 (p : Rust.profile) (self : Instruction) : option u32 :=
  _ <- (if Rust.debug_assertions p then (t1 <- Instruction_get_type p self ;;
      match t1 with
      | Type_R | Type_I | Type_S | Type_B => Some tt
      | _ => None
      end) else Some tt) ;;
  t2 <- Rust.shr p (Rust.band (Instruction_0 self) instructions_RS1MASK) instructions_RS1SHIFT ;;
  Some (Rust.cast Rust.U32 t2).

(** fhevm/src/instructions/mod.rs:792-804 *)
Definition Instruction_get_rd (p : Rust.profile) (self : Instruction) : option u32 :=
  _ <- (if Rust.debug_assertions p then (t1 <- Instruction_get_type p self ;;
      match t1 with
      | Type_R | Type_I | Type_U | Type_J => Some tt
      | _ => None
      end) else Some tt) ;;
  t2 <- Rust.shr p (Rust.band (Instruction_0 self) instructions_RDMASK) instructions_RDSHIFT ;;
  Some (Rust.cast Rust.U32 t2).

(** fhevm/src/instructions/mod.rs:907-915 *)
Definition Instruction_get_registers (p : Rust.profile) (self : Instruction) : option (u32 * u32 * u32) :=
  t1 <- Instruction_get_type p self ;;
  match t1 with
  | Type_R => t2 <- Instruction_get_rs2 p self ;;
  t3 <- Instruction_get_rs1 p self ;;
  t4 <- Instruction_get_rd p self ;;
  Some (t2, t3, t4)
  | Type_I => t5 <- Instruction_get_rs1 p self ;;
  t6 <- Instruction_get_rd p self ;;
  Some ((Rust.lit 0), t5, t6)
  | Type_S | Type_B => t7 <- Instruction_get_rs2 p self ;;
  t8 <- Instruction_get_rs1 p self ;;
  Some (t7, t8, (Rust.lit 0))
  | Type_U | Type_J => t9 <- Instruction_get_rd p self ;;
  Some ((Rust.lit 0), (Rust.lit 0), t9)
  | Type_NONE => Some ((Rust.lit 0), (Rust.lit 0), (Rust.lit 0))
  end.

(** fhevm/src/instructions/mod.rs:698-710 *)
Definition Instruction_get_funct7 (p : Rust.profile) (self : Instruction) : option u32 :=
  _ <- (if Rust.debug_assertions p then (t1 <- Instruction_get_type p self ;;
      match t1 with
      | Type_R | Type_I => Some tt
      | _ => None
      end) else Some tt) ;;
  t2 <- Rust.shr p (Rust.band (Instruction_0 self) instructions_FUNCT7MASK) instructions_FUNCT7SHIFT ;;
  Some (Rust.cast Rust.U32 t2).

(** fhevm/src/instructions/mod.rs:666-678 *)
Definition Instruction_get_funct3 (p : Rust.profile) (self : Instruction) : option u32 :=
  _ <- (if Rust.debug_assertions p then (t1 <- Instruction_get_type p self ;;
      match t1 with
      | Type_U | Type_J => None
      | _ => Some tt
      end) else Some tt) ;;
  t2 <- Rust.shr p (Rust.band (Instruction_0 self) instructions_FUNCT3MASK) instructions_FUNCT3SHIFT ;;
  Some (Rust.cast Rust.U32 t2).

(** fhevm/src/instructions/mod.rs:918-1000 *)
Definition Instruction_get_opid (p : Rust.profile) (self : Instruction) : option (RD_UPDATE * RAM_UPDATE * PC_UPDATE) :=
  t1 <- Instruction_get_opcode p self ;;
  let opcode : u32 := t1 in
  t2 <- Instruction_get_type p self ;;
  match t2 with
  | Type_R => t3 <- Instruction_get_funct7 p self ;;
  t4 <- Instruction_get_funct3 p self ;;
  if ((Rust.eq t3 (Rust.lit 0)) && (Rust.eq t4 (Rust.lit 0))) then (Some (RD_UPDATE_ADD, RAM_UPDATE_NONE, PC_UPDATE_NONE))
  else if ((Rust.eq t3 (Rust.lit 32)) && (Rust.eq t4 (Rust.lit 0))) then (Some (RD_UPDATE_SUB, RAM_UPDATE_NONE, PC_UPDATE_NONE))
  else if ((Rust.eq t3 (Rust.lit 0)) && (Rust.eq t4 (Rust.lit 1))) then (Some (RD_UPDATE_SLL, RAM_UPDATE_NONE, PC_UPDATE_NONE))
  else if ((Rust.eq t3 (Rust.lit 0)) && (Rust.eq t4 (Rust.lit 2))) then (Some (RD_UPDATE_SLT, RAM_UPDATE_NONE, PC_UPDATE_NONE))
  else if ((Rust.eq t3 (Rust.lit 0)) && (Rust.eq t4 (Rust.lit 3))) then (Some (RD_UPDATE_SLTU, RAM_UPDATE_NONE, PC_UPDATE_NONE))
  else if ((Rust.eq t3 (Rust.lit 0)) && (Rust.eq t4 (Rust.lit 4))) then (Some (RD_UPDATE_XOR, RAM_UPDATE_NONE, PC_UPDATE_NONE))
  else if ((Rust.eq t3 (Rust.lit 0)) && (Rust.eq t4 (Rust.lit 5))) then (Some (RD_UPDATE_SRL, RAM_UPDATE_NONE, PC_UPDATE_NONE))
  else if ((Rust.eq t3 (Rust.lit 32)) && (Rust.eq t4 (Rust.lit 5))) then (Some (RD_UPDATE_SRA, RAM_UPDATE_NONE, PC_UPDATE_NONE))
  else if ((Rust.eq t3 (Rust.lit 0)) && (Rust.eq t4 (Rust.lit 6))) then (Some (RD_UPDATE_OR, RAM_UPDATE_NONE, PC_UPDATE_NONE))
  else if ((Rust.eq t3 (Rust.lit 0)) && (Rust.eq t4 (Rust.lit 7))) then (Some (RD_UPDATE_AND, RAM_UPDATE_NONE, PC_UPDATE_NONE))
  else if ((Rust.eq t3 (Rust.lit 1)) && (Rust.eq t4 (Rust.lit 0))) then (Some (RD_UPDATE_MUL, RAM_UPDATE_NONE, PC_UPDATE_NONE))
  else if ((Rust.eq t3 (Rust.lit 1)) && (Rust.eq t4 (Rust.lit 1))) then (Some (RD_UPDATE_MULH, RAM_UPDATE_NONE, PC_UPDATE_NONE))
  else if ((Rust.eq t3 (Rust.lit 1)) && (Rust.eq t4 (Rust.lit 2))) then (Some (RD_UPDATE_MULHSU, RAM_UPDATE_NONE, PC_UPDATE_NONE))
  else if ((Rust.eq t3 (Rust.lit 1)) && (Rust.eq t4 (Rust.lit 3))) then (Some (RD_UPDATE_MULHU, RAM_UPDATE_NONE, PC_UPDATE_NONE))
  else if ((Rust.eq t3 (Rust.lit 1)) && (Rust.eq t4 (Rust.lit 4))) then (Some (RD_UPDATE_DIV, RAM_UPDATE_NONE, PC_UPDATE_NONE))
  else if ((Rust.eq t3 (Rust.lit 1)) && (Rust.eq t4 (Rust.lit 5))) then (Some (RD_UPDATE_DIVU, RAM_UPDATE_NONE, PC_UPDATE_NONE))
  else if ((Rust.eq t3 (Rust.lit 1)) && (Rust.eq t4 (Rust.lit 6))) then (Some (RD_UPDATE_REM, RAM_UPDATE_NONE, PC_UPDATE_NONE))
  else if ((Rust.eq t3 (Rust.lit 1)) && (Rust.eq t4 (Rust.lit 7))) then (Some (RD_UPDATE_REMU, RAM_UPDATE_NONE, PC_UPDATE_NONE))
  else (None)
  | Type_I => t5 <- Instruction_get_funct3 p self ;;
  let funct3 : u32 := t5 in
  if ((Rust.eq opcode (Rust.lit 19))) then (if ((Rust.eq funct3 (Rust.lit 0))) then (Some (RD_UPDATE_ADDI, RAM_UPDATE_NONE, PC_UPDATE_NONE))
    else if ((Rust.eq funct3 (Rust.lit 2))) then (Some (RD_UPDATE_SLTI, RAM_UPDATE_NONE, PC_UPDATE_NONE))
    else if ((Rust.eq funct3 (Rust.lit 3))) then (Some (RD_UPDATE_SLTIU, RAM_UPDATE_NONE, PC_UPDATE_NONE))
    else if ((Rust.eq funct3 (Rust.lit 4))) then (Some (RD_UPDATE_XORI, RAM_UPDATE_NONE, PC_UPDATE_NONE))
    else if ((Rust.eq funct3 (Rust.lit 6))) then (Some (RD_UPDATE_ORI, RAM_UPDATE_NONE, PC_UPDATE_NONE))
    else if ((Rust.eq funct3 (Rust.lit 7))) then (Some (RD_UPDATE_ANDI, RAM_UPDATE_NONE, PC_UPDATE_NONE))
    else if ((Rust.eq funct3 (Rust.lit 1))) then (Some (RD_UPDATE_SLLI, RAM_UPDATE_NONE, PC_UPDATE_NONE))
    else if ((Rust.eq funct3 (Rust.lit 5))) then (t6 <- Instruction_get_funct7 p self ;;
      if ((Rust.eq t6 (Rust.lit 0))) then (Some (RD_UPDATE_SRLI, RAM_UPDATE_NONE, PC_UPDATE_NONE))
      else if ((Rust.eq t6 (Rust.lit 32))) then (Some (RD_UPDATE_SRAI, RAM_UPDATE_NONE, PC_UPDATE_NONE))
      else (None))
    else (None))
  else if ((Rust.eq opcode (Rust.lit 3))) then (if ((Rust.eq funct3 (Rust.lit 0))) then (Some (RD_UPDATE_LB, RAM_UPDATE_NONE, PC_UPDATE_NONE))
    else if ((Rust.eq funct3 (Rust.lit 1))) then (Some (RD_UPDATE_LH, RAM_UPDATE_NONE, PC_UPDATE_NONE))
    else if ((Rust.eq funct3 (Rust.lit 2))) then (Some (RD_UPDATE_LW, RAM_UPDATE_NONE, PC_UPDATE_NONE))
    else if ((Rust.eq funct3 (Rust.lit 4))) then (Some (RD_UPDATE_LBU, RAM_UPDATE_NONE, PC_UPDATE_NONE))
    else if ((Rust.eq funct3 (Rust.lit 5))) then (Some (RD_UPDATE_LHU, RAM_UPDATE_NONE, PC_UPDATE_NONE))
    else (None))
  else if ((Rust.eq opcode (Rust.lit 103))) then (Some (RD_UPDATE_JALR, RAM_UPDATE_NONE, PC_UPDATE_JALR))
  else (None)
  | Type_S => t7 <- Instruction_get_funct3 p self ;;
  if ((Rust.eq t7 (Rust.lit 0))) then (Some (RD_UPDATE_NONE, RAM_UPDATE_SB, PC_UPDATE_NONE))
  else if ((Rust.eq t7 (Rust.lit 1))) then (Some (RD_UPDATE_NONE, RAM_UPDATE_SH, PC_UPDATE_NONE))
  else if ((Rust.eq t7 (Rust.lit 2))) then (Some (RD_UPDATE_NONE, RAM_UPDATE_SW, PC_UPDATE_NONE))
  else (None)
  | Type_B => t8 <- Instruction_get_funct3 p self ;;
  if ((Rust.eq t8 (Rust.lit 0))) then (Some (RD_UPDATE_NONE, RAM_UPDATE_NONE, PC_UPDATE_BEQ))
  else if ((Rust.eq t8 (Rust.lit 1))) then (Some (RD_UPDATE_NONE, RAM_UPDATE_NONE, PC_UPDATE_BNE))
  else if ((Rust.eq t8 (Rust.lit 4))) then (Some (RD_UPDATE_NONE, RAM_UPDATE_NONE, PC_UPDATE_BLT))
  else if ((Rust.eq t8 (Rust.lit 5))) then (Some (RD_UPDATE_NONE, RAM_UPDATE_NONE, PC_UPDATE_BGE))
  else if ((Rust.eq t8 (Rust.lit 6))) then (Some (RD_UPDATE_NONE, RAM_UPDATE_NONE, PC_UPDATE_BLTU))
  else if ((Rust.eq t8 (Rust.lit 7))) then (Some (RD_UPDATE_NONE, RAM_UPDATE_NONE, PC_UPDATE_BGEU))
  else (None)
  | Type_U => if ((Rust.eq opcode (Rust.lit 55))) then (Some (RD_UPDATE_LUI, RAM_UPDATE_NONE, PC_UPDATE_NONE))
  else if ((Rust.eq opcode (Rust.lit 23))) then (Some (RD_UPDATE_AUIPC, RAM_UPDATE_NONE, PC_UPDATE_NONE))
  else (None)
  | Type_J => Some (RD_UPDATE_JAL, RAM_UPDATE_NONE, PC_UPDATE_JAL)
  | Type_NONE => Some (RD_UPDATE_NONE, RAM_UPDATE_NONE, PC_UPDATE_NONE)
  end.

(** fhevm/src/instructions/mod.rs:823-835 *)
Definition Instruction_get_shamt (p : Rust.profile) (self : Instruction) : option u32 :=
  _ <- (if Rust.debug_assertions p then (t1 <- Instruction_get_type p self ;;
      match t1 with
      | Type_I => Some tt
      | _ => None
      end) else Some tt) ;;
  t2 <- Rust.shr p (Rust.band (Instruction_0 self) instructions_SHAMTMASK) instructions_SHAMTSHIFT ;;
  Some (Rust.cast Rust.U32 t2).

(** fhevm/src/instructions/mod.rs:891-904 *)
Definition Instruction_get_imm (p : Rust.profile) (self : Instruction) : option u32 :=
  t1 <- Instruction_get_type p self ;;
  match t1 with
  | Type_R => Some (Rust.lit 0)
  | Type_I => t2 <- Instruction_get_funct3 p self ;;
  t3 <- Instruction_get_opcode p self ;;
  if ((Rust.eq t2 (Rust.lit 1)) && (Rust.eq t3 (Rust.lit 19))) || ((Rust.eq t2 (Rust.lit 5)) && (Rust.eq t3 (Rust.lit 19))) then (t4 <- Instruction_get_shamt p self ;;
    Some (Rust.cast Rust.U32 t4))
  else (t5 <- i_type_get_immediate p (Instruction_0 self) ;;
    Some t5)
  | Type_S => t6 <- s_type_get_immediate p (Instruction_0 self) ;;
  Some t6
  | Type_B => t7 <- b_type_get_immediate p (Instruction_0 self) ;;
  Some t7
  | Type_U => t8 <- u_type_get_immediate p (Instruction_0 self) ;;
  Some t8
  | Type_J => t9 <- j_type_get_immediate p (Instruction_0 self) ;;
  Some t9
  | Type_NONE => Some (Rust.lit 0)
  end.

(** fhevm/src/instructions/mod.rs:509-522 *)
Definition InstructionsParser_add (p : Rust.profile) (self : InstructionsParser) (instruction : Instruction) : option InstructionsParser :=
  t1 <- Instruction_get_registers p instruction ;;
  let '(rs2, rs1, rd) := t1 in
  t2 <- Instruction_get_opid p instruction ;;
  let '(rd_w, mem_w, pc_w) := t2 in
  t3 <- Instruction_get_imm p instruction ;;
  let self := (set_InstructionsParser_imm self (Rust.push (InstructionsParser_imm self) (Rust.cast Rust.I64 t3))) in
  t4 <- Rust.shl p (Rust.cast Rust.I64 rs2) (Rust.lit (t := Rust.I32) 26) ;;
  t5 <- Rust.shl p (Rust.cast Rust.I64 rs1) (Rust.lit (t := Rust.I32) 21) ;;
  t6 <- Rust.shl p (Rust.cast Rust.I64 rd) (Rust.lit (t := Rust.I32) 16) ;;
  t7 <- Rust.shl p (Rust.cast Rust.I64 (RD_UPDATE_discriminant rd_w)) (Rust.lit (t := Rust.I32) 10) ;;
  t8 <- Rust.shl p (Rust.cast Rust.I64 (RAM_UPDATE_discriminant mem_w)) (Rust.lit (t := Rust.I32) 5) ;;
  let self := (set_InstructionsParser_instructions self (Rust.push (InstructionsParser_instructions self) (Rust.bor (Rust.bor (Rust.bor (Rust.bor (Rust.bor t4 t5) t6) t7) t8) (Rust.cast Rust.I64 (PC_UPDATE_discriminant pc_w))))) in
  let self := (set_InstructionsParser_instructions_raw self (Rust.push (InstructionsParser_instructions_raw self) instruction)) in
  Some self.

(** fhevm/src/instructions/mod.rs:524-527 *)
Definition InstructionsParser_assert_size (p : Rust.profile) (self : InstructionsParser) (size : usize) : option unit :=
  if (Rust.eq (Rust.len (InstructionsParser_imm self)) size) then if (Rust.eq (Rust.len (InstructionsParser_instructions self)) size) then Some tt else None else None.

(** fhevm/src/instructions/mod.rs:529-531 *)
Definition InstructionsParser_get_raw (p : Rust.profile) (self : InstructionsParser) (idx : usize) : option Instruction :=
  t1 <- Rust.index (InstructionsParser_instructions_raw self) idx ;;
  Some t1.

(** fhevm/src/instructions/mod.rs:533-545 *)
Definition InstructionsParser_get (p : Rust.profile) (self : InstructionsParser) (idx : usize) : option (i64 * i64 * i64 * i64 * i64 * i64 * i64) :=
  if (Rust.gt (Rust.len (InstructionsParser_imm self)) idx) then t1 <- Rust.index (InstructionsParser_instructions self) idx ;;
  let data := t1 in
  t2 <- Rust.index (InstructionsParser_imm self) idx ;;
  t3 <- Rust.shr p data (Rust.lit (t := Rust.I32) 26) ;;
  t4 <- Rust.shr p data (Rust.lit (t := Rust.I32) 21) ;;
  t5 <- Rust.shr p data (Rust.lit (t := Rust.I32) 16) ;;
  t6 <- Rust.shr p data (Rust.lit (t := Rust.I32) 10) ;;
  t7 <- Rust.shr p data (Rust.lit (t := Rust.I32) 5) ;;
  Some ((Rust.cast Rust.I64 t2), (Rust.cast Rust.I64 (Rust.band t3 (Rust.lit 31))), (Rust.cast Rust.I64 (Rust.band t4 (Rust.lit 31))), (Rust.cast Rust.I64 (Rust.band t5 (Rust.lit 31))), (Rust.cast Rust.I64 (Rust.band t6 (Rust.lit 63))), (Rust.cast Rust.I64 (Rust.band t7 (Rust.lit 31))), (Rust.cast Rust.I64 (Rust.band data (Rust.lit 31)))) else None.

(** fhevm/src/instructions/mod.rs:547-598 *)
Definition InstructionsParser_assert_instruction (p : Rust.profile) (self : InstructionsParser) (idx : usize) (imm : i64) (rs2 : i64) (rs1 : i64) (rd : i64) (rd_w : i64) (mem_w : i64) (pc_w : i64) : option unit :=
  t1 <- InstructionsParser_get p self idx ;;
  let '(imm_have, rs2_have, rs1_have, rd_have, rd_w_have, mem_w_have, pc_w_have) := t1 in
  let number_of_instructions : usize := (Rust.len (InstructionsParser_imm self)) in
  if (Rust.gt number_of_instructions idx) then if (Rust.eq imm_have imm) then if (Rust.eq rs2_have rs2) then if (Rust.eq rs1_have rs1) then if (Rust.eq rd_have rd) then if (Rust.eq rd_w_have rd_w) then if (Rust.eq mem_w_have mem_w) then if (Rust.eq pc_w_have pc_w) then Some tt else None else None else None else None else None else None else None else None.

(** fhevm/src/instructions/mod.rs:646-648 *)
Definition Instruction_new (p : Rust.profile) (instruction : u32) : option Instruction :=
  Some (mk_Instruction instruction).

(** fhevm/src/instructions/mod.rs:681-695 *)
Definition Instruction_set_funct3 (p : Rust.profile) (self : Instruction) (funct3 : u32) : option Instruction :=
  _ <- (if Rust.debug_assertions p then (t1 <- Instruction_get_type p self ;;
      match t1 with
      | Type_U | Type_J => None
      | _ => Some tt
      end) else Some tt) ;;
  t2 <- Rust.shl p (Rust.cast Rust.U32 funct3) instructions_FUNCT3SHIFT ;;
  let t3 := (Rust.bor (Rust.band (Instruction_0 self) (Rust.bxor (Rust.lit 4294967295) instructions_FUNCT3MASK)) (Rust.band t2 instructions_FUNCT3MASK)) in
  let self := (mk_Instruction t3) in
  Some self.

(** fhevm/src/instructions/mod.rs:713-727 *)
Definition Instruction_set_funct7 (p : Rust.profile) (self : Instruction) (funct7 : u32) : option Instruction :=
  _ <- (if Rust.debug_assertions p then (t1 <- Instruction_get_type p self ;;
      match t1 with
      | Type_R => Some tt
      | _ => None
      end) else Some tt) ;;
  t2 <- Rust.shl p (Rust.cast Rust.U32 funct7) instructions_FUNCT7SHIFT ;;
  let t3 := (Rust.bor (Rust.band (Instruction_0 self) (Rust.bxor (Rust.lit 4294967295) instructions_FUNCT7MASK)) (Rust.band t2 instructions_FUNCT7MASK)) in
  let self := (mk_Instruction t3) in
  Some self.

(** fhevm/src/instructions/mod.rs:745-758 *)
Definition Instruction_set_rs1 (p : Rust.profile) (self : Instruction) (rs1 : u32) : option Instruction :=
  _ <- (if Rust.debug_assertions p then (t1 <- Instruction_get_type p self ;;
      match t1 with
      | Type_R | Type_I | Type_S | Type_B => Some tt
      | _ => None
      end) else Some tt) ;;
  t2 <- Rust.shl p (Rust.cast Rust.U32 rs1) instructions_RS1SHIFT ;;
  let t3 := (Rust.bor (Rust.band (Instruction_0 self) (Rust.bxor (Rust.lit 4294967295) instructions_RS1MASK)) (Rust.band t2 instructions_RS1MASK)) in
  let self := (mk_Instruction t3) in
  Some self.

(** fhevm/src/instructions/mod.rs:776-789 *)
Definition Instruction_set_rs2 (p : Rust.profile) (self : Instruction) (rs2 : u32) : option Instruction :=
  _ <- (if Rust.debug_assertions p then (t1 <- Instruction_get_type p self ;;
      match t1 with
      | Type_R | Type_S | Type_B => Some tt
      | _ => None
      end) else Some tt) ;;
  t2 <- Rust.shl p (Rust.cast Rust.U32 rs2) instructions_RS2SHIFT ;;
  let t3 := (Rust.bor (Rust.band (Instruction_0 self) (Rust.bxor (Rust.lit 4294967295) instructions_RS2MASK)) (Rust.band t2 instructions_RS2MASK)) in
  let self := (mk_Instruction t3) in
  Some self.

(** fhevm/src/instructions/mod.rs:807-820 *)
Definition Instruction_set_rd (p : Rust.profile) (self : Instruction) (rd : u32) : option Instruction :=
  _ <- (if Rust.debug_assertions p then (t1 <- Instruction_get_type p self ;;
      match t1 with
      | Type_R | Type_I | Type_U | Type_J => Some tt
      | _ => None
      end) else Some tt) ;;
  t2 <- Rust.shl p (Rust.cast Rust.U32 rd) instructions_RDSHIFT ;;
  let t3 := (Rust.bor (Rust.band (Instruction_0 self) (Rust.bxor (Rust.lit 4294967295) instructions_RDMASK)) (Rust.band t2 instructions_RDMASK)) in
  let self := (mk_Instruction t3) in
  Some self.

(** fhevm/src/instructions/mod.rs:838-851 *)
Definition Instruction_set_shamt (p : Rust.profile) (self : Instruction) (shamt : u32) : option Instruction :=
  _ <- (if Rust.debug_assertions p then (t1 <- Instruction_get_type p self ;;
      match t1 with
      | Type_I => Some tt
      | _ => None
      end) else Some tt) ;;
  t2 <- Rust.shl p (Rust.cast Rust.U32 shamt) instructions_SHAMTSHIFT ;;
  let t3 := (Rust.bor (Rust.band (Instruction_0 self) (Rust.bxor (Rust.lit 4294967295) instructions_SHAMTMASK)) (Rust.band t2 instructions_SHAMTMASK)) in
  let self := (mk_Instruction t3) in
  Some self.

(** fhevm/src/instructions/mod.rs:855-857 *)
Definition Instruction_get (p : Rust.profile) (self : Instruction) : option u32 :=
  Some (Instruction_0 self).

(** fhevm/src/instructions/mod.rs:866-870 *)
Definition Instruction_set_opcode (p : Rust.profile) (self : Instruction) (opcode : u32) : option Instruction :=
  t1 <- Rust.shl p (Rust.cast Rust.U32 opcode) instructions_OPCODESHIFT ;;
  let t2 := (Rust.bor (Rust.band (Instruction_0 self) (Rust.bxor (Rust.lit 4294967295) instructions_OPCODEMASK)) (Rust.band t1 instructions_OPCODEMASK)) in
  let self := (mk_Instruction t2) in
  Some self.

(** fhevm/src/instructions/mod.rs:873-888 *)
Definition Instruction_set_imm (p : Rust.profile) (self : Instruction) (imm : u32) : option Instruction :=
  t1 <- Instruction_get_type p self ;;
  match t1 with
  | Type_R => None
  | Type_I => t2 <- Instruction_get_funct3 p self ;;
  t3 <- Instruction_get_opcode p self ;;
  if ((Rust.eq t2 (Rust.lit 1)) && (Rust.eq t3 (Rust.lit 19))) || ((Rust.eq t2 (Rust.lit 5)) && (Rust.eq t3 (Rust.lit 19))) then (t4 <- Instruction_set_shamt p self (Rust.cast Rust.U32 imm) ;;
    Some t4)
  else (t5 <- i_type_set_immediate p self imm ;;
    Some t5)
  | Type_S => t6 <- s_type_set_immediate p self imm ;;
  Some t6
  | Type_B => t7 <- b_type_set_immediate p self imm ;;
  Some t7
  | Type_U => t8 <- u_type_set_immediate p self imm ;;
  Some t8
  | Type_J => t9 <- j_type_set_immediate p self imm ;;
  Some t9
  | Type_NONE => None
  end.
