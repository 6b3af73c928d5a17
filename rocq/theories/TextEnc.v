(** * The encrypted machine, translated

    Generated by tools/gen_eng.py from fhevm/src/rd_update.rs, fhevm/src/ram_update.rs, fhevm/src/ram_offset.rs, fhevm/src/pc_update.rs, fhevm/src/prepare.rs, fhevm/src/interpreter.rs.
    Do not edit.  The operators are those of Rust.v and RustIter.v; the library
    is the records of RustLib.v and RustEng.v. *)
Require Import ZArith List Bool.
From Verif Require Import Rust RustIter RustLib RustEng.
From Verif Require Import TextInstr.
From Verif Require Import TextDebug.
From Verif Require Import TextMem.
Import ListNotations.
Open Scope Z_scope.
Local Notation u8 := (Rust.int Rust.U8).
Local Notation u16 := (Rust.int Rust.U16).
Local Notation u32 := (Rust.int Rust.U32).
Local Notation u64 := (Rust.int Rust.U64).
Local Notation usize := (Rust.int Rust.USize).
Local Notation i32 := (Rust.int Rust.I32).
Local Notation i64 := (Rust.int Rust.I64).

Section Text.
Variable L : library.
Variable E : engine L.
Local Notation Module := (RustLib.Module L).
Local Notation Keys := (RustLib.Keys L).
Local Notation Scratch := (RustLib.Scratch L).
Local Notation GLWE := (RustLib.GLWE L).
Local Notation FheUint := (RustLib.FheUint L).
Local Notation FheUintPrepared := (RustLib.FheUintPrepared L).
Local Notation GLWEBlindRetriever := (RustLib.GLWEBlindRetriever L).
Local Notation GLWELayout := (RustLib.GLWELayout L).
Local Notation GGLWELayout := (RustLib.GGLWELayout L).
Local Notation GGSWLayout := (RustLib.GGSWLayout L).
Local Notation GLWEPlaintext := (RustLib.GLWEPlaintext L).
Local Notation Secret := (RustLib.Secret L).
Local Notation Source := (RustLib.Source L).
Local Notation GGSWPrepared := (RustEng.GGSWPrepared E).
Local Notation GGSW := (RustEng.GGSW E).
Local Notation LWE := (RustEng.LWE E).
Local Notation CbtKey := (RustEng.CbtKey E).
Local Notation KsGlwe := (RustEng.KsGlwe E).
Local Notation KsLwe := (RustEng.KsLwe E).
Local Notation CryptographicParameters := (RustEng.CryptographicParameters E).
Local Notation Memory := (TextMem.Memory L).

(** fhevm/src/ram_offset.rs:56-59 *)
Record FheUintHelper_ram_offset := mk_FheUintHelper_ram_offset {
  FheUintHelper_ram_offset_data : (list FheUintPrepared) }.

Definition set_FheUintHelper_ram_offset_data (s : FheUintHelper_ram_offset) (x : (list FheUintPrepared)) : FheUintHelper_ram_offset :=
  mk_FheUintHelper_ram_offset x.

(** fhevm/src/pc_update.rs:70-73 *)
Record FheUintHelper_pc_update := mk_FheUintHelper_pc_update {
  FheUintHelper_pc_update_data : (list FheUintPrepared) }.

Definition set_FheUintHelper_pc_update_data (s : FheUintHelper_pc_update) (x : (list FheUintPrepared)) : FheUintHelper_pc_update :=
  mk_FheUintHelper_pc_update x.

(** fhevm/src/interpreter.rs:36-39 *)
Inductive InstructionSet := | InstructionSet_RV32M | InstructionSet_RV32I.

(** fhevm/src/interpreter.rs:41-108 *)
Record Interpreter := mk_Interpreter {
  Interpreter_cycle : u32;
  Interpreter_vm_debug : (option InterpreterDebug);
  Interpreter_verbose_timings : bool;
  Interpreter_threads : usize;
  Interpreter_instruction_set : InstructionSet;
  Interpreter_rom_bits_size : usize;
  Interpreter_rom_size : usize;
  Interpreter_imm_rom : Memory;
  Interpreter_rs1_rom : Memory;
  Interpreter_rs2_rom : Memory;
  Interpreter_rd_rom : Memory;
  Interpreter_rdu_rom : Memory;
  Interpreter_mu_rom : Memory;
  Interpreter_pcu_rom : Memory;
  Interpreter_reg_bit_size : usize;
  Interpreter_registers : Memory;
  Interpreter_ram_bit_size : usize;
  Interpreter_ram_size : usize;
  Interpreter_ram : Memory;
  Interpreter_ram_addr_fhe_uint : FheUint;
  Interpreter_ram_val_fhe_uint : FheUint;
  Interpreter_ram_addr_fhe_uint_prepared : FheUintPrepared;
  Interpreter_ram_val_fhe_uint_prepared : FheUintPrepared;
  Interpreter_pc_fhe_uint : FheUint;
  Interpreter_pc_fhe_uint_prepared : FheUintPrepared;
  Interpreter_rs1_addr_fhe_uint : FheUint;
  Interpreter_rs1_addr_fhe_uint_prepared : FheUintPrepared;
  Interpreter_rs1_val_fhe_uint : FheUint;
  Interpreter_rs1_val_fhe_uint_prepared : FheUintPrepared;
  Interpreter_rs2_addr_fhe_uint : FheUint;
  Interpreter_rs2_addr_fhe_uint_prepared : FheUintPrepared;
  Interpreter_rs2_val_fhe_uint : FheUint;
  Interpreter_rs2_val_fhe_uint_prepared : FheUintPrepared;
  Interpreter_imm_val_fhe_uint : FheUint;
  Interpreter_imm_val_fhe_uint_prepared : FheUintPrepared;
  Interpreter_rd_addr_fhe_uint : FheUint;
  Interpreter_rd_addr_fhe_uint_prepared : FheUintPrepared;
  Interpreter_rd_val_fhe_uint : FheUint;
  Interpreter_rd_val_fhe_uint_prepared : FheUintPrepared;
  Interpreter_rdu_val_fhe_uint : FheUint;
  Interpreter_rdu_val_fhe_uint_prepared : FheUintPrepared;
  Interpreter_mu_val_fhe_uint : FheUint;
  Interpreter_mu_val_fhe_uint_prepared : FheUintPrepared;
  Interpreter_pcu_val_fhe_uint : FheUint;
  Interpreter_pcu_val_fhe_uint_prepared : FheUintPrepared }.

Definition set_Interpreter_cycle (s : Interpreter) (x : u32) : Interpreter :=
  mk_Interpreter x (Interpreter_vm_debug s) (Interpreter_verbose_timings s) (Interpreter_threads s) (Interpreter_instruction_set s) (Interpreter_rom_bits_size s) (Interpreter_rom_size s) (Interpreter_imm_rom s) (Interpreter_rs1_rom s) (Interpreter_rs2_rom s) (Interpreter_rd_rom s) (Interpreter_rdu_rom s) (Interpreter_mu_rom s) (Interpreter_pcu_rom s) (Interpreter_reg_bit_size s) (Interpreter_registers s) (Interpreter_ram_bit_size s) (Interpreter_ram_size s) (Interpreter_ram s) (Interpreter_ram_addr_fhe_uint s) (Interpreter_ram_val_fhe_uint s) (Interpreter_ram_addr_fhe_uint_prepared s) (Interpreter_ram_val_fhe_uint_prepared s) (Interpreter_pc_fhe_uint s) (Interpreter_pc_fhe_uint_prepared s) (Interpreter_rs1_addr_fhe_uint s) (Interpreter_rs1_addr_fhe_uint_prepared s) (Interpreter_rs1_val_fhe_uint s) (Interpreter_rs1_val_fhe_uint_prepared s) (Interpreter_rs2_addr_fhe_uint s) (Interpreter_rs2_addr_fhe_uint_prepared s) (Interpreter_rs2_val_fhe_uint s) (Interpreter_rs2_val_fhe_uint_prepared s) (Interpreter_imm_val_fhe_uint s) (Interpreter_imm_val_fhe_uint_prepared s) (Interpreter_rd_addr_fhe_uint s) (Interpreter_rd_addr_fhe_uint_prepared s) (Interpreter_rd_val_fhe_uint s) (Interpreter_rd_val_fhe_uint_prepared s) (Interpreter_rdu_val_fhe_uint s) (Interpreter_rdu_val_fhe_uint_prepared s) (Interpreter_mu_val_fhe_uint s) (Interpreter_mu_val_fhe_uint_prepared s) (Interpreter_pcu_val_fhe_uint s) (Interpreter_pcu_val_fhe_uint_prepared s).

Definition set_Interpreter_vm_debug (s : Interpreter) (x : (option InterpreterDebug)) : Interpreter :=
  mk_Interpreter (Interpreter_cycle s) x (Interpreter_verbose_timings s) (Interpreter_threads s) (Interpreter_instruction_set s) (Interpreter_rom_bits_size s) (Interpreter_rom_size s) (Interpreter_imm_rom s) (Interpreter_rs1_rom s) (Interpreter_rs2_rom s) (Interpreter_rd_rom s) (Interpreter_rdu_rom s) (Interpreter_mu_rom s) (Interpreter_pcu_rom s) (Interpreter_reg_bit_size s) (Interpreter_registers s) (Interpreter_ram_bit_size s) (Interpreter_ram_size s) (Interpreter_ram s) (Interpreter_ram_addr_fhe_uint s) (Interpreter_ram_val_fhe_uint s) (Interpreter_ram_addr_fhe_uint_prepared s) (Interpreter_ram_val_fhe_uint_prepared s) (Interpreter_pc_fhe_uint s) (Interpreter_pc_fhe_uint_prepared s) (Interpreter_rs1_addr_fhe_uint s) (Interpreter_rs1_addr_fhe_uint_prepared s) (Interpreter_rs1_val_fhe_uint s) (Interpreter_rs1_val_fhe_uint_prepared s) (Interpreter_rs2_addr_fhe_uint s) (Interpreter_rs2_addr_fhe_uint_prepared s) (Interpreter_rs2_val_fhe_uint s) (Interpreter_rs2_val_fhe_uint_prepared s) (Interpreter_imm_val_fhe_uint s) (Interpreter_imm_val_fhe_uint_prepared s) (Interpreter_rd_addr_fhe_uint s) (Interpreter_rd_addr_fhe_uint_prepared s) (Interpreter_rd_val_fhe_uint s) (Interpreter_rd_val_fhe_uint_prepared s) (Interpreter_rdu_val_fhe_uint s) (Interpreter_rdu_val_fhe_uint_prepared s) (Interpreter_mu_val_fhe_uint s) (Interpreter_mu_val_fhe_uint_prepared s) (Interpreter_pcu_val_fhe_uint s) (Interpreter_pcu_val_fhe_uint_prepared s).

Definition set_Interpreter_verbose_timings (s : Interpreter) (x : bool) : Interpreter :=
  mk_Interpreter (Interpreter_cycle s) (Interpreter_vm_debug s) x (Interpreter_threads s) (Interpreter_instruction_set s) (Interpreter_rom_bits_size s) (Interpreter_rom_size s) (Interpreter_imm_rom s) (Interpreter_rs1_rom s) (Interpreter_rs2_rom s) (Interpreter_rd_rom s) (Interpreter_rdu_rom s) (Interpreter_mu_rom s) (Interpreter_pcu_rom s) (Interpreter_reg_bit_size s) (Interpreter_registers s) (Interpreter_ram_bit_size s) (Interpreter_ram_size s) (Interpreter_ram s) (Interpreter_ram_addr_fhe_uint s) (Interpreter_ram_val_fhe_uint s) (Interpreter_ram_addr_fhe_uint_prepared s) (Interpreter_ram_val_fhe_uint_prepared s) (Interpreter_pc_fhe_uint s) (Interpreter_pc_fhe_uint_prepared s) (Interpreter_rs1_addr_fhe_uint s) (Interpreter_rs1_addr_fhe_uint_prepared s) (Interpreter_rs1_val_fhe_uint s) (Interpreter_rs1_val_fhe_uint_prepared s) (Interpreter_rs2_addr_fhe_uint s) (Interpreter_rs2_addr_fhe_uint_prepared s) (Interpreter_rs2_val_fhe_uint s) (Interpreter_rs2_val_fhe_uint_prepared s) (Interpreter_imm_val_fhe_uint s) (Interpreter_imm_val_fhe_uint_prepared s) (Interpreter_rd_addr_fhe_uint s) (Interpreter_rd_addr_fhe_uint_prepared s) (Interpreter_rd_val_fhe_uint s) (Interpreter_rd_val_fhe_uint_prepared s) (Interpreter_rdu_val_fhe_uint s) (Interpreter_rdu_val_fhe_uint_prepared s) (Interpreter_mu_val_fhe_uint s) (Interpreter_mu_val_fhe_uint_prepared s) (Interpreter_pcu_val_fhe_uint s) (Interpreter_pcu_val_fhe_uint_prepared s).

Definition set_Interpreter_threads (s : Interpreter) (x : usize) : Interpreter :=
  mk_Interpreter (Interpreter_cycle s) (Interpreter_vm_debug s) (Interpreter_verbose_timings s) x (Interpreter_instruction_set s) (Interpreter_rom_bits_size s) (Interpreter_rom_size s) (Interpreter_imm_rom s) (Interpreter_rs1_rom s) (Interpreter_rs2_rom s) (Interpreter_rd_rom s) (Interpreter_rdu_rom s) (Interpreter_mu_rom s) (Interpreter_pcu_rom s) (Interpreter_reg_bit_size s) (Interpreter_registers s) (Interpreter_ram_bit_size s) (Interpreter_ram_size s) (Interpreter_ram s) (Interpreter_ram_addr_fhe_uint s) (Interpreter_ram_val_fhe_uint s) (Interpreter_ram_addr_fhe_uint_prepared s) (Interpreter_ram_val_fhe_uint_prepared s) (Interpreter_pc_fhe_uint s) (Interpreter_pc_fhe_uint_prepared s) (Interpreter_rs1_addr_fhe_uint s) (Interpreter_rs1_addr_fhe_uint_prepared s) (Interpreter_rs1_val_fhe_uint s) (Interpreter_rs1_val_fhe_uint_prepared s) (Interpreter_rs2_addr_fhe_uint s) (Interpreter_rs2_addr_fhe_uint_prepared s) (Interpreter_rs2_val_fhe_uint s) (Interpreter_rs2_val_fhe_uint_prepared s) (Interpreter_imm_val_fhe_uint s) (Interpreter_imm_val_fhe_uint_prepared s) (Interpreter_rd_addr_fhe_uint s) (Interpreter_rd_addr_fhe_uint_prepared s) (Interpreter_rd_val_fhe_uint s) (Interpreter_rd_val_fhe_uint_prepared s) (Interpreter_rdu_val_fhe_uint s) (Interpreter_rdu_val_fhe_uint_prepared s) (Interpreter_mu_val_fhe_uint s) (Interpreter_mu_val_fhe_uint_prepared s) (Interpreter_pcu_val_fhe_uint s) (Interpreter_pcu_val_fhe_uint_prepared s).

Definition set_Interpreter_instruction_set (s : Interpreter) (x : InstructionSet) : Interpreter :=
  mk_Interpreter (Interpreter_cycle s) (Interpreter_vm_debug s) (Interpreter_verbose_timings s) (Interpreter_threads s) x (Interpreter_rom_bits_size s) (Interpreter_rom_size s) (Interpreter_imm_rom s) (Interpreter_rs1_rom s) (Interpreter_rs2_rom s) (Interpreter_rd_rom s) (Interpreter_rdu_rom s) (Interpreter_mu_rom s) (Interpreter_pcu_rom s) (Interpreter_reg_bit_size s) (Interpreter_registers s) (Interpreter_ram_bit_size s) (Interpreter_ram_size s) (Interpreter_ram s) (Interpreter_ram_addr_fhe_uint s) (Interpreter_ram_val_fhe_uint s) (Interpreter_ram_addr_fhe_uint_prepared s) (Interpreter_ram_val_fhe_uint_prepared s) (Interpreter_pc_fhe_uint s) (Interpreter_pc_fhe_uint_prepared s) (Interpreter_rs1_addr_fhe_uint s) (Interpreter_rs1_addr_fhe_uint_prepared s) (Interpreter_rs1_val_fhe_uint s) (Interpreter_rs1_val_fhe_uint_prepared s) (Interpreter_rs2_addr_fhe_uint s) (Interpreter_rs2_addr_fhe_uint_prepared s) (Interpreter_rs2_val_fhe_uint s) (Interpreter_rs2_val_fhe_uint_prepared s) (Interpreter_imm_val_fhe_uint s) (Interpreter_imm_val_fhe_uint_prepared s) (Interpreter_rd_addr_fhe_uint s) (Interpreter_rd_addr_fhe_uint_prepared s) (Interpreter_rd_val_fhe_uint s) (Interpreter_rd_val_fhe_uint_prepared s) (Interpreter_rdu_val_fhe_uint s) (Interpreter_rdu_val_fhe_uint_prepared s) (Interpreter_mu_val_fhe_uint s) (Interpreter_mu_val_fhe_uint_prepared s) (Interpreter_pcu_val_fhe_uint s) (Interpreter_pcu_val_fhe_uint_prepared s).

Definition set_Interpreter_rom_bits_size (s : Interpreter) (x : usize) : Interpreter :=
  mk_Interpreter (Interpreter_cycle s) (Interpreter_vm_debug s) (Interpreter_verbose_timings s) (Interpreter_threads s) (Interpreter_instruction_set s) x (Interpreter_rom_size s) (Interpreter_imm_rom s) (Interpreter_rs1_rom s) (Interpreter_rs2_rom s) (Interpreter_rd_rom s) (Interpreter_rdu_rom s) (Interpreter_mu_rom s) (Interpreter_pcu_rom s) (Interpreter_reg_bit_size s) (Interpreter_registers s) (Interpreter_ram_bit_size s) (Interpreter_ram_size s) (Interpreter_ram s) (Interpreter_ram_addr_fhe_uint s) (Interpreter_ram_val_fhe_uint s) (Interpreter_ram_addr_fhe_uint_prepared s) (Interpreter_ram_val_fhe_uint_prepared s) (Interpreter_pc_fhe_uint s) (Interpreter_pc_fhe_uint_prepared s) (Interpreter_rs1_addr_fhe_uint s) (Interpreter_rs1_addr_fhe_uint_prepared s) (Interpreter_rs1_val_fhe_uint s) (Interpreter_rs1_val_fhe_uint_prepared s) (Interpreter_rs2_addr_fhe_uint s) (Interpreter_rs2_addr_fhe_uint_prepared s) (Interpreter_rs2_val_fhe_uint s) (Interpreter_rs2_val_fhe_uint_prepared s) (Interpreter_imm_val_fhe_uint s) (Interpreter_imm_val_fhe_uint_prepared s) (Interpreter_rd_addr_fhe_uint s) (Interpreter_rd_addr_fhe_uint_prepared s) (Interpreter_rd_val_fhe_uint s) (Interpreter_rd_val_fhe_uint_prepared s) (Interpreter_rdu_val_fhe_uint s) (Interpreter_rdu_val_fhe_uint_prepared s) (Interpreter_mu_val_fhe_uint s) (Interpreter_mu_val_fhe_uint_prepared s) (Interpreter_pcu_val_fhe_uint s) (Interpreter_pcu_val_fhe_uint_prepared s).

Definition set_Interpreter_rom_size (s : Interpreter) (x : usize) : Interpreter :=
  mk_Interpreter (Interpreter_cycle s) (Interpreter_vm_debug s) (Interpreter_verbose_timings s) (Interpreter_threads s) (Interpreter_instruction_set s) (Interpreter_rom_bits_size s) x (Interpreter_imm_rom s) (Interpreter_rs1_rom s) (Interpreter_rs2_rom s) (Interpreter_rd_rom s) (Interpreter_rdu_rom s) (Interpreter_mu_rom s) (Interpreter_pcu_rom s) (Interpreter_reg_bit_size s) (Interpreter_registers s) (Interpreter_ram_bit_size s) (Interpreter_ram_size s) (Interpreter_ram s) (Interpreter_ram_addr_fhe_uint s) (Interpreter_ram_val_fhe_uint s) (Interpreter_ram_addr_fhe_uint_prepared s) (Interpreter_ram_val_fhe_uint_prepared s) (Interpreter_pc_fhe_uint s) (Interpreter_pc_fhe_uint_prepared s) (Interpreter_rs1_addr_fhe_uint s) (Interpreter_rs1_addr_fhe_uint_prepared s) (Interpreter_rs1_val_fhe_uint s) (Interpreter_rs1_val_fhe_uint_prepared s) (Interpreter_rs2_addr_fhe_uint s) (Interpreter_rs2_addr_fhe_uint_prepared s) (Interpreter_rs2_val_fhe_uint s) (Interpreter_rs2_val_fhe_uint_prepared s) (Interpreter_imm_val_fhe_uint s) (Interpreter_imm_val_fhe_uint_prepared s) (Interpreter_rd_addr_fhe_uint s) (Interpreter_rd_addr_fhe_uint_prepared s) (Interpreter_rd_val_fhe_uint s) (Interpreter_rd_val_fhe_uint_prepared s) (Interpreter_rdu_val_fhe_uint s) (Interpreter_rdu_val_fhe_uint_prepared s) (Interpreter_mu_val_fhe_uint s) (Interpreter_mu_val_fhe_uint_prepared s) (Interpreter_pcu_val_fhe_uint s) (Interpreter_pcu_val_fhe_uint_prepared s).

Definition set_Interpreter_imm_rom (s : Interpreter) (x : Memory) : Interpreter :=
  mk_Interpreter (Interpreter_cycle s) (Interpreter_vm_debug s) (Interpreter_verbose_timings s) (Interpreter_threads s) (Interpreter_instruction_set s) (Interpreter_rom_bits_size s) (Interpreter_rom_size s) x (Interpreter_rs1_rom s) (Interpreter_rs2_rom s) (Interpreter_rd_rom s) (Interpreter_rdu_rom s) (Interpreter_mu_rom s) (Interpreter_pcu_rom s) (Interpreter_reg_bit_size s) (Interpreter_registers s) (Interpreter_ram_bit_size s) (Interpreter_ram_size s) (Interpreter_ram s) (Interpreter_ram_addr_fhe_uint s) (Interpreter_ram_val_fhe_uint s) (Interpreter_ram_addr_fhe_uint_prepared s) (Interpreter_ram_val_fhe_uint_prepared s) (Interpreter_pc_fhe_uint s) (Interpreter_pc_fhe_uint_prepared s) (Interpreter_rs1_addr_fhe_uint s) (Interpreter_rs1_addr_fhe_uint_prepared s) (Interpreter_rs1_val_fhe_uint s) (Interpreter_rs1_val_fhe_uint_prepared s) (Interpreter_rs2_addr_fhe_uint s) (Interpreter_rs2_addr_fhe_uint_prepared s) (Interpreter_rs2_val_fhe_uint s) (Interpreter_rs2_val_fhe_uint_prepared s) (Interpreter_imm_val_fhe_uint s) (Interpreter_imm_val_fhe_uint_prepared s) (Interpreter_rd_addr_fhe_uint s) (Interpreter_rd_addr_fhe_uint_prepared s) (Interpreter_rd_val_fhe_uint s) (Interpreter_rd_val_fhe_uint_prepared s) (Interpreter_rdu_val_fhe_uint s) (Interpreter_rdu_val_fhe_uint_prepared s) (Interpreter_mu_val_fhe_uint s) (Interpreter_mu_val_fhe_uint_prepared s) (Interpreter_pcu_val_fhe_uint s) (Interpreter_pcu_val_fhe_uint_prepared s).

Definition set_Interpreter_rs1_rom (s : Interpreter) (x : Memory) : Interpreter :=
  mk_Interpreter (Interpreter_cycle s) (Interpreter_vm_debug s) (Interpreter_verbose_timings s) (Interpreter_threads s) (Interpreter_instruction_set s) (Interpreter_rom_bits_size s) (Interpreter_rom_size s) (Interpreter_imm_rom s) x (Interpreter_rs2_rom s) (Interpreter_rd_rom s) (Interpreter_rdu_rom s) (Interpreter_mu_rom s) (Interpreter_pcu_rom s) (Interpreter_reg_bit_size s) (Interpreter_registers s) (Interpreter_ram_bit_size s) (Interpreter_ram_size s) (Interpreter_ram s) (Interpreter_ram_addr_fhe_uint s) (Interpreter_ram_val_fhe_uint s) (Interpreter_ram_addr_fhe_uint_prepared s) (Interpreter_ram_val_fhe_uint_prepared s) (Interpreter_pc_fhe_uint s) (Interpreter_pc_fhe_uint_prepared s) (Interpreter_rs1_addr_fhe_uint s) (Interpreter_rs1_addr_fhe_uint_prepared s) (Interpreter_rs1_val_fhe_uint s) (Interpreter_rs1_val_fhe_uint_prepared s) (Interpreter_rs2_addr_fhe_uint s) (Interpreter_rs2_addr_fhe_uint_prepared s) (Interpreter_rs2_val_fhe_uint s) (Interpreter_rs2_val_fhe_uint_prepared s) (Interpreter_imm_val_fhe_uint s) (Interpreter_imm_val_fhe_uint_prepared s) (Interpreter_rd_addr_fhe_uint s) (Interpreter_rd_addr_fhe_uint_prepared s) (Interpreter_rd_val_fhe_uint s) (Interpreter_rd_val_fhe_uint_prepared s) (Interpreter_rdu_val_fhe_uint s) (Interpreter_rdu_val_fhe_uint_prepared s) (Interpreter_mu_val_fhe_uint s) (Interpreter_mu_val_fhe_uint_prepared s) (Interpreter_pcu_val_fhe_uint s) (Interpreter_pcu_val_fhe_uint_prepared s).

Definition set_Interpreter_rs2_rom (s : Interpreter) (x : Memory) : Interpreter :=
  mk_Interpreter (Interpreter_cycle s) (Interpreter_vm_debug s) (Interpreter_verbose_timings s) (Interpreter_threads s) (Interpreter_instruction_set s) (Interpreter_rom_bits_size s) (Interpreter_rom_size s) (Interpreter_imm_rom s) (Interpreter_rs1_rom s) x (Interpreter_rd_rom s) (Interpreter_rdu_rom s) (Interpreter_mu_rom s) (Interpreter_pcu_rom s) (Interpreter_reg_bit_size s) (Interpreter_registers s) (Interpreter_ram_bit_size s) (Interpreter_ram_size s) (Interpreter_ram s) (Interpreter_ram_addr_fhe_uint s) (Interpreter_ram_val_fhe_uint s) (Interpreter_ram_addr_fhe_uint_prepared s) (Interpreter_ram_val_fhe_uint_prepared s) (Interpreter_pc_fhe_uint s) (Interpreter_pc_fhe_uint_prepared s) (Interpreter_rs1_addr_fhe_uint s) (Interpreter_rs1_addr_fhe_uint_prepared s) (Interpreter_rs1_val_fhe_uint s) (Interpreter_rs1_val_fhe_uint_prepared s) (Interpreter_rs2_addr_fhe_uint s) (Interpreter_rs2_addr_fhe_uint_prepared s) (Interpreter_rs2_val_fhe_uint s) (Interpreter_rs2_val_fhe_uint_prepared s) (Interpreter_imm_val_fhe_uint s) (Interpreter_imm_val_fhe_uint_prepared s) (Interpreter_rd_addr_fhe_uint s) (Interpreter_rd_addr_fhe_uint_prepared s) (Interpreter_rd_val_fhe_uint s) (Interpreter_rd_val_fhe_uint_prepared s) (Interpreter_rdu_val_fhe_uint s) (Interpreter_rdu_val_fhe_uint_prepared s) (Interpreter_mu_val_fhe_uint s) (Interpreter_mu_val_fhe_uint_prepared s) (Interpreter_pcu_val_fhe_uint s) (Interpreter_pcu_val_fhe_uint_prepared s).

Definition set_Interpreter_rd_rom (s : Interpreter) (x : Memory) : Interpreter :=
  mk_Interpreter (Interpreter_cycle s) (Interpreter_vm_debug s) (Interpreter_verbose_timings s) (Interpreter_threads s) (Interpreter_instruction_set s) (Interpreter_rom_bits_size s) (Interpreter_rom_size s) (Interpreter_imm_rom s) (Interpreter_rs1_rom s) (Interpreter_rs2_rom s) x (Interpreter_rdu_rom s) (Interpreter_mu_rom s) (Interpreter_pcu_rom s) (Interpreter_reg_bit_size s) (Interpreter_registers s) (Interpreter_ram_bit_size s) (Interpreter_ram_size s) (Interpreter_ram s) (Interpreter_ram_addr_fhe_uint s) (Interpreter_ram_val_fhe_uint s) (Interpreter_ram_addr_fhe_uint_prepared s) (Interpreter_ram_val_fhe_uint_prepared s) (Interpreter_pc_fhe_uint s) (Interpreter_pc_fhe_uint_prepared s) (Interpreter_rs1_addr_fhe_uint s) (Interpreter_rs1_addr_fhe_uint_prepared s) (Interpreter_rs1_val_fhe_uint s) (Interpreter_rs1_val_fhe_uint_prepared s) (Interpreter_rs2_addr_fhe_uint s) (Interpreter_rs2_addr_fhe_uint_prepared s) (Interpreter_rs2_val_fhe_uint s) (Interpreter_rs2_val_fhe_uint_prepared s) (Interpreter_imm_val_fhe_uint s) (Interpreter_imm_val_fhe_uint_prepared s) (Interpreter_rd_addr_fhe_uint s) (Interpreter_rd_addr_fhe_uint_prepared s) (Interpreter_rd_val_fhe_uint s) (Interpreter_rd_val_fhe_uint_prepared s) (Interpreter_rdu_val_fhe_uint s) (Interpreter_rdu_val_fhe_uint_prepared s) (Interpreter_mu_val_fhe_uint s) (Interpreter_mu_val_fhe_uint_prepared s) (Interpreter_pcu_val_fhe_uint s) (Interpreter_pcu_val_fhe_uint_prepared s).

Definition set_Interpreter_rdu_rom (s : Interpreter) (x : Memory) : Interpreter :=
  mk_Interpreter (Interpreter_cycle s) (Interpreter_vm_debug s) (Interpreter_verbose_timings s) (Interpreter_threads s) (Interpreter_instruction_set s) (Interpreter_rom_bits_size s) (Interpreter_rom_size s) (Interpreter_imm_rom s) (Interpreter_rs1_rom s) (Interpreter_rs2_rom s) (Interpreter_rd_rom s) x (Interpreter_mu_rom s) (Interpreter_pcu_rom s) (Interpreter_reg_bit_size s) (Interpreter_registers s) (Interpreter_ram_bit_size s) (Interpreter_ram_size s) (Interpreter_ram s) (Interpreter_ram_addr_fhe_uint s) (Interpreter_ram_val_fhe_uint s) (Interpreter_ram_addr_fhe_uint_prepared s) (Interpreter_ram_val_fhe_uint_prepared s) (Interpreter_pc_fhe_uint s) (Interpreter_pc_fhe_uint_prepared s) (Interpreter_rs1_addr_fhe_uint s) (Interpreter_rs1_addr_fhe_uint_prepared s) (Interpreter_rs1_val_fhe_uint s) (Interpreter_rs1_val_fhe_uint_prepared s) (Interpreter_rs2_addr_fhe_uint s) (Interpreter_rs2_addr_fhe_uint_prepared s) (Interpreter_rs2_val_fhe_uint s) (Interpreter_rs2_val_fhe_uint_prepared s) (Interpreter_imm_val_fhe_uint s) (Interpreter_imm_val_fhe_uint_prepared s) (Interpreter_rd_addr_fhe_uint s) (Interpreter_rd_addr_fhe_uint_prepared s) (Interpreter_rd_val_fhe_uint s) (Interpreter_rd_val_fhe_uint_prepared s) (Interpreter_rdu_val_fhe_uint s) (Interpreter_rdu_val_fhe_uint_prepared s) (Interpreter_mu_val_fhe_uint s) (Interpreter_mu_val_fhe_uint_prepared s) (Interpreter_pcu_val_fhe_uint s) (Interpreter_pcu_val_fhe_uint_prepared s).

Definition set_Interpreter_mu_rom (s : Interpreter) (x : Memory) : Interpreter :=
  mk_Interpreter (Interpreter_cycle s) (Interpreter_vm_debug s) (Interpreter_verbose_timings s) (Interpreter_threads s) (Interpreter_instruction_set s) (Interpreter_rom_bits_size s) (Interpreter_rom_size s) (Interpreter_imm_rom s) (Interpreter_rs1_rom s) (Interpreter_rs2_rom s) (Interpreter_rd_rom s) (Interpreter_rdu_rom s) x (Interpreter_pcu_rom s) (Interpreter_reg_bit_size s) (Interpreter_registers s) (Interpreter_ram_bit_size s) (Interpreter_ram_size s) (Interpreter_ram s) (Interpreter_ram_addr_fhe_uint s) (Interpreter_ram_val_fhe_uint s) (Interpreter_ram_addr_fhe_uint_prepared s) (Interpreter_ram_val_fhe_uint_prepared s) (Interpreter_pc_fhe_uint s) (Interpreter_pc_fhe_uint_prepared s) (Interpreter_rs1_addr_fhe_uint s) (Interpreter_rs1_addr_fhe_uint_prepared s) (Interpreter_rs1_val_fhe_uint s) (Interpreter_rs1_val_fhe_uint_prepared s) (Interpreter_rs2_addr_fhe_uint s) (Interpreter_rs2_addr_fhe_uint_prepared s) (Interpreter_rs2_val_fhe_uint s) (Interpreter_rs2_val_fhe_uint_prepared s) (Interpreter_imm_val_fhe_uint s) (Interpreter_imm_val_fhe_uint_prepared s) (Interpreter_rd_addr_fhe_uint s) (Interpreter_rd_addr_fhe_uint_prepared s) (Interpreter_rd_val_fhe_uint s) (Interpreter_rd_val_fhe_uint_prepared s) (Interpreter_rdu_val_fhe_uint s) (Interpreter_rdu_val_fhe_uint_prepared s) (Interpreter_mu_val_fhe_uint s) (Interpreter_mu_val_fhe_uint_prepared s) (Interpreter_pcu_val_fhe_uint s) (Interpreter_pcu_val_fhe_uint_prepared s).

Definition set_Interpreter_pcu_rom (s : Interpreter) (x : Memory) : Interpreter :=
  mk_Interpreter (Interpreter_cycle s) (Interpreter_vm_debug s) (Interpreter_verbose_timings s) (Interpreter_threads s) (Interpreter_instruction_set s) (Interpreter_rom_bits_size s) (Interpreter_rom_size s) (Interpreter_imm_rom s) (Interpreter_rs1_rom s) (Interpreter_rs2_rom s) (Interpreter_rd_rom s) (Interpreter_rdu_rom s) (Interpreter_mu_rom s) x (Interpreter_reg_bit_size s) (Interpreter_registers s) (Interpreter_ram_bit_size s) (Interpreter_ram_size s) (Interpreter_ram s) (Interpreter_ram_addr_fhe_uint s) (Interpreter_ram_val_fhe_uint s) (Interpreter_ram_addr_fhe_uint_prepared s) (Interpreter_ram_val_fhe_uint_prepared s) (Interpreter_pc_fhe_uint s) (Interpreter_pc_fhe_uint_prepared s) (Interpreter_rs1_addr_fhe_uint s) (Interpreter_rs1_addr_fhe_uint_prepared s) (Interpreter_rs1_val_fhe_uint s) (Interpreter_rs1_val_fhe_uint_prepared s) (Interpreter_rs2_addr_fhe_uint s) (Interpreter_rs2_addr_fhe_uint_prepared s) (Interpreter_rs2_val_fhe_uint s) (Interpreter_rs2_val_fhe_uint_prepared s) (Interpreter_imm_val_fhe_uint s) (Interpreter_imm_val_fhe_uint_prepared s) (Interpreter_rd_addr_fhe_uint s) (Interpreter_rd_addr_fhe_uint_prepared s) (Interpreter_rd_val_fhe_uint s) (Interpreter_rd_val_fhe_uint_prepared s) (Interpreter_rdu_val_fhe_uint s) (Interpreter_rdu_val_fhe_uint_prepared s) (Interpreter_mu_val_fhe_uint s) (Interpreter_mu_val_fhe_uint_prepared s) (Interpreter_pcu_val_fhe_uint s) (Interpreter_pcu_val_fhe_uint_prepared s).

Definition set_Interpreter_reg_bit_size (s : Interpreter) (x : usize) : Interpreter :=
  mk_Interpreter (Interpreter_cycle s) (Interpreter_vm_debug s) (Interpreter_verbose_timings s) (Interpreter_threads s) (Interpreter_instruction_set s) (Interpreter_rom_bits_size s) (Interpreter_rom_size s) (Interpreter_imm_rom s) (Interpreter_rs1_rom s) (Interpreter_rs2_rom s) (Interpreter_rd_rom s) (Interpreter_rdu_rom s) (Interpreter_mu_rom s) (Interpreter_pcu_rom s) x (Interpreter_registers s) (Interpreter_ram_bit_size s) (Interpreter_ram_size s) (Interpreter_ram s) (Interpreter_ram_addr_fhe_uint s) (Interpreter_ram_val_fhe_uint s) (Interpreter_ram_addr_fhe_uint_prepared s) (Interpreter_ram_val_fhe_uint_prepared s) (Interpreter_pc_fhe_uint s) (Interpreter_pc_fhe_uint_prepared s) (Interpreter_rs1_addr_fhe_uint s) (Interpreter_rs1_addr_fhe_uint_prepared s) (Interpreter_rs1_val_fhe_uint s) (Interpreter_rs1_val_fhe_uint_prepared s) (Interpreter_rs2_addr_fhe_uint s) (Interpreter_rs2_addr_fhe_uint_prepared s) (Interpreter_rs2_val_fhe_uint s) (Interpreter_rs2_val_fhe_uint_prepared s) (Interpreter_imm_val_fhe_uint s) (Interpreter_imm_val_fhe_uint_prepared s) (Interpreter_rd_addr_fhe_uint s) (Interpreter_rd_addr_fhe_uint_prepared s) (Interpreter_rd_val_fhe_uint s) (Interpreter_rd_val_fhe_uint_prepared s) (Interpreter_rdu_val_fhe_uint s) (Interpreter_rdu_val_fhe_uint_prepared s) (Interpreter_mu_val_fhe_uint s) (Interpreter_mu_val_fhe_uint_prepared s) (Interpreter_pcu_val_fhe_uint s) (Interpreter_pcu_val_fhe_uint_prepared s).

Definition set_Interpreter_registers (s : Interpreter) (x : Memory) : Interpreter :=
  mk_Interpreter (Interpreter_cycle s) (Interpreter_vm_debug s) (Interpreter_verbose_timings s) (Interpreter_threads s) (Interpreter_instruction_set s) (Interpreter_rom_bits_size s) (Interpreter_rom_size s) (Interpreter_imm_rom s) (Interpreter_rs1_rom s) (Interpreter_rs2_rom s) (Interpreter_rd_rom s) (Interpreter_rdu_rom s) (Interpreter_mu_rom s) (Interpreter_pcu_rom s) (Interpreter_reg_bit_size s) x (Interpreter_ram_bit_size s) (Interpreter_ram_size s) (Interpreter_ram s) (Interpreter_ram_addr_fhe_uint s) (Interpreter_ram_val_fhe_uint s) (Interpreter_ram_addr_fhe_uint_prepared s) (Interpreter_ram_val_fhe_uint_prepared s) (Interpreter_pc_fhe_uint s) (Interpreter_pc_fhe_uint_prepared s) (Interpreter_rs1_addr_fhe_uint s) (Interpreter_rs1_addr_fhe_uint_prepared s) (Interpreter_rs1_val_fhe_uint s) (Interpreter_rs1_val_fhe_uint_prepared s) (Interpreter_rs2_addr_fhe_uint s) (Interpreter_rs2_addr_fhe_uint_prepared s) (Interpreter_rs2_val_fhe_uint s) (Interpreter_rs2_val_fhe_uint_prepared s) (Interpreter_imm_val_fhe_uint s) (Interpreter_imm_val_fhe_uint_prepared s) (Interpreter_rd_addr_fhe_uint s) (Interpreter_rd_addr_fhe_uint_prepared s) (Interpreter_rd_val_fhe_uint s) (Interpreter_rd_val_fhe_uint_prepared s) (Interpreter_rdu_val_fhe_uint s) (Interpreter_rdu_val_fhe_uint_prepared s) (Interpreter_mu_val_fhe_uint s) (Interpreter_mu_val_fhe_uint_prepared s) (Interpreter_pcu_val_fhe_uint s) (Interpreter_pcu_val_fhe_uint_prepared s).

Definition set_Interpreter_ram_bit_size (s : Interpreter) (x : usize) : Interpreter :=
  mk_Interpreter (Interpreter_cycle s) (Interpreter_vm_debug s) (Interpreter_verbose_timings s) (Interpreter_threads s) (Interpreter_instruction_set s) (Interpreter_rom_bits_size s) (Interpreter_rom_size s) (Interpreter_imm_rom s) (Interpreter_rs1_rom s) (Interpreter_rs2_rom s) (Interpreter_rd_rom s) (Interpreter_rdu_rom s) (Interpreter_mu_rom s) (Interpreter_pcu_rom s) (Interpreter_reg_bit_size s) (Interpreter_registers s) x (Interpreter_ram_size s) (Interpreter_ram s) (Interpreter_ram_addr_fhe_uint s) (Interpreter_ram_val_fhe_uint s) (Interpreter_ram_addr_fhe_uint_prepared s) (Interpreter_ram_val_fhe_uint_prepared s) (Interpreter_pc_fhe_uint s) (Interpreter_pc_fhe_uint_prepared s) (Interpreter_rs1_addr_fhe_uint s) (Interpreter_rs1_addr_fhe_uint_prepared s) (Interpreter_rs1_val_fhe_uint s) (Interpreter_rs1_val_fhe_uint_prepared s) (Interpreter_rs2_addr_fhe_uint s) (Interpreter_rs2_addr_fhe_uint_prepared s) (Interpreter_rs2_val_fhe_uint s) (Interpreter_rs2_val_fhe_uint_prepared s) (Interpreter_imm_val_fhe_uint s) (Interpreter_imm_val_fhe_uint_prepared s) (Interpreter_rd_addr_fhe_uint s) (Interpreter_rd_addr_fhe_uint_prepared s) (Interpreter_rd_val_fhe_uint s) (Interpreter_rd_val_fhe_uint_prepared s) (Interpreter_rdu_val_fhe_uint s) (Interpreter_rdu_val_fhe_uint_prepared s) (Interpreter_mu_val_fhe_uint s) (Interpreter_mu_val_fhe_uint_prepared s) (Interpreter_pcu_val_fhe_uint s) (Interpreter_pcu_val_fhe_uint_prepared s).

Definition set_Interpreter_ram_size (s : Interpreter) (x : usize) : Interpreter :=
  mk_Interpreter (Interpreter_cycle s) (Interpreter_vm_debug s) (Interpreter_verbose_timings s) (Interpreter_threads s) (Interpreter_instruction_set s) (Interpreter_rom_bits_size s) (Interpreter_rom_size s) (Interpreter_imm_rom s) (Interpreter_rs1_rom s) (Interpreter_rs2_rom s) (Interpreter_rd_rom s) (Interpreter_rdu_rom s) (Interpreter_mu_rom s) (Interpreter_pcu_rom s) (Interpreter_reg_bit_size s) (Interpreter_registers s) (Interpreter_ram_bit_size s) x (Interpreter_ram s) (Interpreter_ram_addr_fhe_uint s) (Interpreter_ram_val_fhe_uint s) (Interpreter_ram_addr_fhe_uint_prepared s) (Interpreter_ram_val_fhe_uint_prepared s) (Interpreter_pc_fhe_uint s) (Interpreter_pc_fhe_uint_prepared s) (Interpreter_rs1_addr_fhe_uint s) (Interpreter_rs1_addr_fhe_uint_prepared s) (Interpreter_rs1_val_fhe_uint s) (Interpreter_rs1_val_fhe_uint_prepared s) (Interpreter_rs2_addr_fhe_uint s) (Interpreter_rs2_addr_fhe_uint_prepared s) (Interpreter_rs2_val_fhe_uint s) (Interpreter_rs2_val_fhe_uint_prepared s) (Interpreter_imm_val_fhe_uint s) (Interpreter_imm_val_fhe_uint_prepared s) (Interpreter_rd_addr_fhe_uint s) (Interpreter_rd_addr_fhe_uint_prepared s) (Interpreter_rd_val_fhe_uint s) (Interpreter_rd_val_fhe_uint_prepared s) (Interpreter_rdu_val_fhe_uint s) (Interpreter_rdu_val_fhe_uint_prepared s) (Interpreter_mu_val_fhe_uint s) (Interpreter_mu_val_fhe_uint_prepared s) (Interpreter_pcu_val_fhe_uint s) (Interpreter_pcu_val_fhe_uint_prepared s).

Definition set_Interpreter_ram (s : Interpreter) (x : Memory) : Interpreter :=
  mk_Interpreter (Interpreter_cycle s) (Interpreter_vm_debug s) (Interpreter_verbose_timings s) (Interpreter_threads s) (Interpreter_instruction_set s) (Interpreter_rom_bits_size s) (Interpreter_rom_size s) (Interpreter_imm_rom s) (Interpreter_rs1_rom s) (Interpreter_rs2_rom s) (Interpreter_rd_rom s) (Interpreter_rdu_rom s) (Interpreter_mu_rom s) (Interpreter_pcu_rom s) (Interpreter_reg_bit_size s) (Interpreter_registers s) (Interpreter_ram_bit_size s) (Interpreter_ram_size s) x (Interpreter_ram_addr_fhe_uint s) (Interpreter_ram_val_fhe_uint s) (Interpreter_ram_addr_fhe_uint_prepared s) (Interpreter_ram_val_fhe_uint_prepared s) (Interpreter_pc_fhe_uint s) (Interpreter_pc_fhe_uint_prepared s) (Interpreter_rs1_addr_fhe_uint s) (Interpreter_rs1_addr_fhe_uint_prepared s) (Interpreter_rs1_val_fhe_uint s) (Interpreter_rs1_val_fhe_uint_prepared s) (Interpreter_rs2_addr_fhe_uint s) (Interpreter_rs2_addr_fhe_uint_prepared s) (Interpreter_rs2_val_fhe_uint s) (Interpreter_rs2_val_fhe_uint_prepared s) (Interpreter_imm_val_fhe_uint s) (Interpreter_imm_val_fhe_uint_prepared s) (Interpreter_rd_addr_fhe_uint s) (Interpreter_rd_addr_fhe_uint_prepared s) (Interpreter_rd_val_fhe_uint s) (Interpreter_rd_val_fhe_uint_prepared s) (Interpreter_rdu_val_fhe_uint s) (Interpreter_rdu_val_fhe_uint_prepared s) (Interpreter_mu_val_fhe_uint s) (Interpreter_mu_val_fhe_uint_prepared s) (Interpreter_pcu_val_fhe_uint s) (Interpreter_pcu_val_fhe_uint_prepared s).

Definition set_Interpreter_ram_addr_fhe_uint (s : Interpreter) (x : FheUint) : Interpreter :=
  mk_Interpreter (Interpreter_cycle s) (Interpreter_vm_debug s) (Interpreter_verbose_timings s) (Interpreter_threads s) (Interpreter_instruction_set s) (Interpreter_rom_bits_size s) (Interpreter_rom_size s) (Interpreter_imm_rom s) (Interpreter_rs1_rom s) (Interpreter_rs2_rom s) (Interpreter_rd_rom s) (Interpreter_rdu_rom s) (Interpreter_mu_rom s) (Interpreter_pcu_rom s) (Interpreter_reg_bit_size s) (Interpreter_registers s) (Interpreter_ram_bit_size s) (Interpreter_ram_size s) (Interpreter_ram s) x (Interpreter_ram_val_fhe_uint s) (Interpreter_ram_addr_fhe_uint_prepared s) (Interpreter_ram_val_fhe_uint_prepared s) (Interpreter_pc_fhe_uint s) (Interpreter_pc_fhe_uint_prepared s) (Interpreter_rs1_addr_fhe_uint s) (Interpreter_rs1_addr_fhe_uint_prepared s) (Interpreter_rs1_val_fhe_uint s) (Interpreter_rs1_val_fhe_uint_prepared s) (Interpreter_rs2_addr_fhe_uint s) (Interpreter_rs2_addr_fhe_uint_prepared s) (Interpreter_rs2_val_fhe_uint s) (Interpreter_rs2_val_fhe_uint_prepared s) (Interpreter_imm_val_fhe_uint s) (Interpreter_imm_val_fhe_uint_prepared s) (Interpreter_rd_addr_fhe_uint s) (Interpreter_rd_addr_fhe_uint_prepared s) (Interpreter_rd_val_fhe_uint s) (Interpreter_rd_val_fhe_uint_prepared s) (Interpreter_rdu_val_fhe_uint s) (Interpreter_rdu_val_fhe_uint_prepared s) (Interpreter_mu_val_fhe_uint s) (Interpreter_mu_val_fhe_uint_prepared s) (Interpreter_pcu_val_fhe_uint s) (Interpreter_pcu_val_fhe_uint_prepared s).

Definition set_Interpreter_ram_val_fhe_uint (s : Interpreter) (x : FheUint) : Interpreter :=
  mk_Interpreter (Interpreter_cycle s) (Interpreter_vm_debug s) (Interpreter_verbose_timings s) (Interpreter_threads s) (Interpreter_instruction_set s) (Interpreter_rom_bits_size s) (Interpreter_rom_size s) (Interpreter_imm_rom s) (Interpreter_rs1_rom s) (Interpreter_rs2_rom s) (Interpreter_rd_rom s) (Interpreter_rdu_rom s) (Interpreter_mu_rom s) (Interpreter_pcu_rom s) (Interpreter_reg_bit_size s) (Interpreter_registers s) (Interpreter_ram_bit_size s) (Interpreter_ram_size s) (Interpreter_ram s) (Interpreter_ram_addr_fhe_uint s) x (Interpreter_ram_addr_fhe_uint_prepared s) (Interpreter_ram_val_fhe_uint_prepared s) (Interpreter_pc_fhe_uint s) (Interpreter_pc_fhe_uint_prepared s) (Interpreter_rs1_addr_fhe_uint s) (Interpreter_rs1_addr_fhe_uint_prepared s) (Interpreter_rs1_val_fhe_uint s) (Interpreter_rs1_val_fhe_uint_prepared s) (Interpreter_rs2_addr_fhe_uint s) (Interpreter_rs2_addr_fhe_uint_prepared s) (Interpreter_rs2_val_fhe_uint s) (Interpreter_rs2_val_fhe_uint_prepared s) (Interpreter_imm_val_fhe_uint s) (Interpreter_imm_val_fhe_uint_prepared s) (Interpreter_rd_addr_fhe_uint s) (Interpreter_rd_addr_fhe_uint_prepared s) (Interpreter_rd_val_fhe_uint s) (Interpreter_rd_val_fhe_uint_prepared s) (Interpreter_rdu_val_fhe_uint s) (Interpreter_rdu_val_fhe_uint_prepared s) (Interpreter_mu_val_fhe_uint s) (Interpreter_mu_val_fhe_uint_prepared s) (Interpreter_pcu_val_fhe_uint s) (Interpreter_pcu_val_fhe_uint_prepared s).

Definition set_Interpreter_ram_addr_fhe_uint_prepared (s : Interpreter) (x : FheUintPrepared) : Interpreter :=
  mk_Interpreter (Interpreter_cycle s) (Interpreter_vm_debug s) (Interpreter_verbose_timings s) (Interpreter_threads s) (Interpreter_instruction_set s) (Interpreter_rom_bits_size s) (Interpreter_rom_size s) (Interpreter_imm_rom s) (Interpreter_rs1_rom s) (Interpreter_rs2_rom s) (Interpreter_rd_rom s) (Interpreter_rdu_rom s) (Interpreter_mu_rom s) (Interpreter_pcu_rom s) (Interpreter_reg_bit_size s) (Interpreter_registers s) (Interpreter_ram_bit_size s) (Interpreter_ram_size s) (Interpreter_ram s) (Interpreter_ram_addr_fhe_uint s) (Interpreter_ram_val_fhe_uint s) x (Interpreter_ram_val_fhe_uint_prepared s) (Interpreter_pc_fhe_uint s) (Interpreter_pc_fhe_uint_prepared s) (Interpreter_rs1_addr_fhe_uint s) (Interpreter_rs1_addr_fhe_uint_prepared s) (Interpreter_rs1_val_fhe_uint s) (Interpreter_rs1_val_fhe_uint_prepared s) (Interpreter_rs2_addr_fhe_uint s) (Interpreter_rs2_addr_fhe_uint_prepared s) (Interpreter_rs2_val_fhe_uint s) (Interpreter_rs2_val_fhe_uint_prepared s) (Interpreter_imm_val_fhe_uint s) (Interpreter_imm_val_fhe_uint_prepared s) (Interpreter_rd_addr_fhe_uint s) (Interpreter_rd_addr_fhe_uint_prepared s) (Interpreter_rd_val_fhe_uint s) (Interpreter_rd_val_fhe_uint_prepared s) (Interpreter_rdu_val_fhe_uint s) (Interpreter_rdu_val_fhe_uint_prepared s) (Interpreter_mu_val_fhe_uint s) (Interpreter_mu_val_fhe_uint_prepared s) (Interpreter_pcu_val_fhe_uint s) (Interpreter_pcu_val_fhe_uint_prepared s).

Definition set_Interpreter_ram_val_fhe_uint_prepared (s : Interpreter) (x : FheUintPrepared) : Interpreter :=
  mk_Interpreter (Interpreter_cycle s) (Interpreter_vm_debug s) (Interpreter_verbose_timings s) (Interpreter_threads s) (Interpreter_instruction_set s) (Interpreter_rom_bits_size s) (Interpreter_rom_size s) (Interpreter_imm_rom s) (Interpreter_rs1_rom s) (Interpreter_rs2_rom s) (Interpreter_rd_rom s) (Interpreter_rdu_rom s) (Interpreter_mu_rom s) (Interpreter_pcu_rom s) (Interpreter_reg_bit_size s) (Interpreter_registers s) (Interpreter_ram_bit_size s) (Interpreter_ram_size s) (Interpreter_ram s) (Interpreter_ram_addr_fhe_uint s) (Interpreter_ram_val_fhe_uint s) (Interpreter_ram_addr_fhe_uint_prepared s) x (Interpreter_pc_fhe_uint s) (Interpreter_pc_fhe_uint_prepared s) (Interpreter_rs1_addr_fhe_uint s) (Interpreter_rs1_addr_fhe_uint_prepared s) (Interpreter_rs1_val_fhe_uint s) (Interpreter_rs1_val_fhe_uint_prepared s) (Interpreter_rs2_addr_fhe_uint s) (Interpreter_rs2_addr_fhe_uint_prepared s) (Interpreter_rs2_val_fhe_uint s) (Interpreter_rs2_val_fhe_uint_prepared s) (Interpreter_imm_val_fhe_uint s) (Interpreter_imm_val_fhe_uint_prepared s) (Interpreter_rd_addr_fhe_uint s) (Interpreter_rd_addr_fhe_uint_prepared s) (Interpreter_rd_val_fhe_uint s) (Interpreter_rd_val_fhe_uint_prepared s) (Interpreter_rdu_val_fhe_uint s) (Interpreter_rdu_val_fhe_uint_prepared s) (Interpreter_mu_val_fhe_uint s) (Interpreter_mu_val_fhe_uint_prepared s) (Interpreter_pcu_val_fhe_uint s) (Interpreter_pcu_val_fhe_uint_prepared s).

Definition set_Interpreter_pc_fhe_uint (s : Interpreter) (x : FheUint) : Interpreter :=
  mk_Interpreter (Interpreter_cycle s) (Interpreter_vm_debug s) (Interpreter_verbose_timings s) (Interpreter_threads s) (Interpreter_instruction_set s) (Interpreter_rom_bits_size s) (Interpreter_rom_size s) (Interpreter_imm_rom s) (Interpreter_rs1_rom s) (Interpreter_rs2_rom s) (Interpreter_rd_rom s) (Interpreter_rdu_rom s) (Interpreter_mu_rom s) (Interpreter_pcu_rom s) (Interpreter_reg_bit_size s) (Interpreter_registers s) (Interpreter_ram_bit_size s) (Interpreter_ram_size s) (Interpreter_ram s) (Interpreter_ram_addr_fhe_uint s) (Interpreter_ram_val_fhe_uint s) (Interpreter_ram_addr_fhe_uint_prepared s) (Interpreter_ram_val_fhe_uint_prepared s) x (Interpreter_pc_fhe_uint_prepared s) (Interpreter_rs1_addr_fhe_uint s) (Interpreter_rs1_addr_fhe_uint_prepared s) (Interpreter_rs1_val_fhe_uint s) (Interpreter_rs1_val_fhe_uint_prepared s) (Interpreter_rs2_addr_fhe_uint s) (Interpreter_rs2_addr_fhe_uint_prepared s) (Interpreter_rs2_val_fhe_uint s) (Interpreter_rs2_val_fhe_uint_prepared s) (Interpreter_imm_val_fhe_uint s) (Interpreter_imm_val_fhe_uint_prepared s) (Interpreter_rd_addr_fhe_uint s) (Interpreter_rd_addr_fhe_uint_prepared s) (Interpreter_rd_val_fhe_uint s) (Interpreter_rd_val_fhe_uint_prepared s) (Interpreter_rdu_val_fhe_uint s) (Interpreter_rdu_val_fhe_uint_prepared s) (Interpreter_mu_val_fhe_uint s) (Interpreter_mu_val_fhe_uint_prepared s) (Interpreter_pcu_val_fhe_uint s) (Interpreter_pcu_val_fhe_uint_prepared s).

Definition set_Interpreter_pc_fhe_uint_prepared (s : Interpreter) (x : FheUintPrepared) : Interpreter :=
  mk_Interpreter (Interpreter_cycle s) (Interpreter_vm_debug s) (Interpreter_verbose_timings s) (Interpreter_threads s) (Interpreter_instruction_set s) (Interpreter_rom_bits_size s) (Interpreter_rom_size s) (Interpreter_imm_rom s) (Interpreter_rs1_rom s) (Interpreter_rs2_rom s) (Interpreter_rd_rom s) (Interpreter_rdu_rom s) (Interpreter_mu_rom s) (Interpreter_pcu_rom s) (Interpreter_reg_bit_size s) (Interpreter_registers s) (Interpreter_ram_bit_size s) (Interpreter_ram_size s) (Interpreter_ram s) (Interpreter_ram_addr_fhe_uint s) (Interpreter_ram_val_fhe_uint s) (Interpreter_ram_addr_fhe_uint_prepared s) (Interpreter_ram_val_fhe_uint_prepared s) (Interpreter_pc_fhe_uint s) x (Interpreter_rs1_addr_fhe_uint s) (Interpreter_rs1_addr_fhe_uint_prepared s) (Interpreter_rs1_val_fhe_uint s) (Interpreter_rs1_val_fhe_uint_prepared s) (Interpreter_rs2_addr_fhe_uint s) (Interpreter_rs2_addr_fhe_uint_prepared s) (Interpreter_rs2_val_fhe_uint s) (Interpreter_rs2_val_fhe_uint_prepared s) (Interpreter_imm_val_fhe_uint s) (Interpreter_imm_val_fhe_uint_prepared s) (Interpreter_rd_addr_fhe_uint s) (Interpreter_rd_addr_fhe_uint_prepared s) (Interpreter_rd_val_fhe_uint s) (Interpreter_rd_val_fhe_uint_prepared s) (Interpreter_rdu_val_fhe_uint s) (Interpreter_rdu_val_fhe_uint_prepared s) (Interpreter_mu_val_fhe_uint s) (Interpreter_mu_val_fhe_uint_prepared s) (Interpreter_pcu_val_fhe_uint s) (Interpreter_pcu_val_fhe_uint_prepared s).

Definition set_Interpreter_rs1_addr_fhe_uint (s : Interpreter) (x : FheUint) : Interpreter :=
  mk_Interpreter (Interpreter_cycle s) (Interpreter_vm_debug s) (Interpreter_verbose_timings s) (Interpreter_threads s) (Interpreter_instruction_set s) (Interpreter_rom_bits_size s) (Interpreter_rom_size s) (Interpreter_imm_rom s) (Interpreter_rs1_rom s) (Interpreter_rs2_rom s) (Interpreter_rd_rom s) (Interpreter_rdu_rom s) (Interpreter_mu_rom s) (Interpreter_pcu_rom s) (Interpreter_reg_bit_size s) (Interpreter_registers s) (Interpreter_ram_bit_size s) (Interpreter_ram_size s) (Interpreter_ram s) (Interpreter_ram_addr_fhe_uint s) (Interpreter_ram_val_fhe_uint s) (Interpreter_ram_addr_fhe_uint_prepared s) (Interpreter_ram_val_fhe_uint_prepared s) (Interpreter_pc_fhe_uint s) (Interpreter_pc_fhe_uint_prepared s) x (Interpreter_rs1_addr_fhe_uint_prepared s) (Interpreter_rs1_val_fhe_uint s) (Interpreter_rs1_val_fhe_uint_prepared s) (Interpreter_rs2_addr_fhe_uint s) (Interpreter_rs2_addr_fhe_uint_prepared s) (Interpreter_rs2_val_fhe_uint s) (Interpreter_rs2_val_fhe_uint_prepared s) (Interpreter_imm_val_fhe_uint s) (Interpreter_imm_val_fhe_uint_prepared s) (Interpreter_rd_addr_fhe_uint s) (Interpreter_rd_addr_fhe_uint_prepared s) (Interpreter_rd_val_fhe_uint s) (Interpreter_rd_val_fhe_uint_prepared s) (Interpreter_rdu_val_fhe_uint s) (Interpreter_rdu_val_fhe_uint_prepared s) (Interpreter_mu_val_fhe_uint s) (Interpreter_mu_val_fhe_uint_prepared s) (Interpreter_pcu_val_fhe_uint s) (Interpreter_pcu_val_fhe_uint_prepared s).

Definition set_Interpreter_rs1_addr_fhe_uint_prepared (s : Interpreter) (x : FheUintPrepared) : Interpreter :=
  mk_Interpreter (Interpreter_cycle s) (Interpreter_vm_debug s) (Interpreter_verbose_timings s) (Interpreter_threads s) (Interpreter_instruction_set s) (Interpreter_rom_bits_size s) (Interpreter_rom_size s) (Interpreter_imm_rom s) (Interpreter_rs1_rom s) (Interpreter_rs2_rom s) (Interpreter_rd_rom s) (Interpreter_rdu_rom s) (Interpreter_mu_rom s) (Interpreter_pcu_rom s) (Interpreter_reg_bit_size s) (Interpreter_registers s) (Interpreter_ram_bit_size s) (Interpreter_ram_size s) (Interpreter_ram s) (Interpreter_ram_addr_fhe_uint s) (Interpreter_ram_val_fhe_uint s) (Interpreter_ram_addr_fhe_uint_prepared s) (Interpreter_ram_val_fhe_uint_prepared s) (Interpreter_pc_fhe_uint s) (Interpreter_pc_fhe_uint_prepared s) (Interpreter_rs1_addr_fhe_uint s) x (Interpreter_rs1_val_fhe_uint s) (Interpreter_rs1_val_fhe_uint_prepared s) (Interpreter_rs2_addr_fhe_uint s) (Interpreter_rs2_addr_fhe_uint_prepared s) (Interpreter_rs2_val_fhe_uint s) (Interpreter_rs2_val_fhe_uint_prepared s) (Interpreter_imm_val_fhe_uint s) (Interpreter_imm_val_fhe_uint_prepared s) (Interpreter_rd_addr_fhe_uint s) (Interpreter_rd_addr_fhe_uint_prepared s) (Interpreter_rd_val_fhe_uint s) (Interpreter_rd_val_fhe_uint_prepared s) (Interpreter_rdu_val_fhe_uint s) (Interpreter_rdu_val_fhe_uint_prepared s) (Interpreter_mu_val_fhe_uint s) (Interpreter_mu_val_fhe_uint_prepared s) (Interpreter_pcu_val_fhe_uint s) (Interpreter_pcu_val_fhe_uint_prepared s).

Definition set_Interpreter_rs1_val_fhe_uint (s : Interpreter) (x : FheUint) : Interpreter :=
  mk_Interpreter (Interpreter_cycle s) (Interpreter_vm_debug s) (Interpreter_verbose_timings s) (Interpreter_threads s) (Interpreter_instruction_set s) (Interpreter_rom_bits_size s) (Interpreter_rom_size s) (Interpreter_imm_rom s) (Interpreter_rs1_rom s) (Interpreter_rs2_rom s) (Interpreter_rd_rom s) (Interpreter_rdu_rom s) (Interpreter_mu_rom s) (Interpreter_pcu_rom s) (Interpreter_reg_bit_size s) (Interpreter_registers s) (Interpreter_ram_bit_size s) (Interpreter_ram_size s) (Interpreter_ram s) (Interpreter_ram_addr_fhe_uint s) (Interpreter_ram_val_fhe_uint s) (Interpreter_ram_addr_fhe_uint_prepared s) (Interpreter_ram_val_fhe_uint_prepared s) (Interpreter_pc_fhe_uint s) (Interpreter_pc_fhe_uint_prepared s) (Interpreter_rs1_addr_fhe_uint s) (Interpreter_rs1_addr_fhe_uint_prepared s) x (Interpreter_rs1_val_fhe_uint_prepared s) (Interpreter_rs2_addr_fhe_uint s) (Interpreter_rs2_addr_fhe_uint_prepared s) (Interpreter_rs2_val_fhe_uint s) (Interpreter_rs2_val_fhe_uint_prepared s) (Interpreter_imm_val_fhe_uint s) (Interpreter_imm_val_fhe_uint_prepared s) (Interpreter_rd_addr_fhe_uint s) (Interpreter_rd_addr_fhe_uint_prepared s) (Interpreter_rd_val_fhe_uint s) (Interpreter_rd_val_fhe_uint_prepared s) (Interpreter_rdu_val_fhe_uint s) (Interpreter_rdu_val_fhe_uint_prepared s) (Interpreter_mu_val_fhe_uint s) (Interpreter_mu_val_fhe_uint_prepared s) (Interpreter_pcu_val_fhe_uint s) (Interpreter_pcu_val_fhe_uint_prepared s).

Definition set_Interpreter_rs1_val_fhe_uint_prepared (s : Interpreter) (x : FheUintPrepared) : Interpreter :=
  mk_Interpreter (Interpreter_cycle s) (Interpreter_vm_debug s) (Interpreter_verbose_timings s) (Interpreter_threads s) (Interpreter_instruction_set s) (Interpreter_rom_bits_size s) (Interpreter_rom_size s) (Interpreter_imm_rom s) (Interpreter_rs1_rom s) (Interpreter_rs2_rom s) (Interpreter_rd_rom s) (Interpreter_rdu_rom s) (Interpreter_mu_rom s) (Interpreter_pcu_rom s) (Interpreter_reg_bit_size s) (Interpreter_registers s) (Interpreter_ram_bit_size s) (Interpreter_ram_size s) (Interpreter_ram s) (Interpreter_ram_addr_fhe_uint s) (Interpreter_ram_val_fhe_uint s) (Interpreter_ram_addr_fhe_uint_prepared s) (Interpreter_ram_val_fhe_uint_prepared s) (Interpreter_pc_fhe_uint s) (Interpreter_pc_fhe_uint_prepared s) (Interpreter_rs1_addr_fhe_uint s) (Interpreter_rs1_addr_fhe_uint_prepared s) (Interpreter_rs1_val_fhe_uint s) x (Interpreter_rs2_addr_fhe_uint s) (Interpreter_rs2_addr_fhe_uint_prepared s) (Interpreter_rs2_val_fhe_uint s) (Interpreter_rs2_val_fhe_uint_prepared s) (Interpreter_imm_val_fhe_uint s) (Interpreter_imm_val_fhe_uint_prepared s) (Interpreter_rd_addr_fhe_uint s) (Interpreter_rd_addr_fhe_uint_prepared s) (Interpreter_rd_val_fhe_uint s) (Interpreter_rd_val_fhe_uint_prepared s) (Interpreter_rdu_val_fhe_uint s) (Interpreter_rdu_val_fhe_uint_prepared s) (Interpreter_mu_val_fhe_uint s) (Interpreter_mu_val_fhe_uint_prepared s) (Interpreter_pcu_val_fhe_uint s) (Interpreter_pcu_val_fhe_uint_prepared s).

Definition set_Interpreter_rs2_addr_fhe_uint (s : Interpreter) (x : FheUint) : Interpreter :=
  mk_Interpreter (Interpreter_cycle s) (Interpreter_vm_debug s) (Interpreter_verbose_timings s) (Interpreter_threads s) (Interpreter_instruction_set s) (Interpreter_rom_bits_size s) (Interpreter_rom_size s) (Interpreter_imm_rom s) (Interpreter_rs1_rom s) (Interpreter_rs2_rom s) (Interpreter_rd_rom s) (Interpreter_rdu_rom s) (Interpreter_mu_rom s) (Interpreter_pcu_rom s) (Interpreter_reg_bit_size s) (Interpreter_registers s) (Interpreter_ram_bit_size s) (Interpreter_ram_size s) (Interpreter_ram s) (Interpreter_ram_addr_fhe_uint s) (Interpreter_ram_val_fhe_uint s) (Interpreter_ram_addr_fhe_uint_prepared s) (Interpreter_ram_val_fhe_uint_prepared s) (Interpreter_pc_fhe_uint s) (Interpreter_pc_fhe_uint_prepared s) (Interpreter_rs1_addr_fhe_uint s) (Interpreter_rs1_addr_fhe_uint_prepared s) (Interpreter_rs1_val_fhe_uint s) (Interpreter_rs1_val_fhe_uint_prepared s) x (Interpreter_rs2_addr_fhe_uint_prepared s) (Interpreter_rs2_val_fhe_uint s) (Interpreter_rs2_val_fhe_uint_prepared s) (Interpreter_imm_val_fhe_uint s) (Interpreter_imm_val_fhe_uint_prepared s) (Interpreter_rd_addr_fhe_uint s) (Interpreter_rd_addr_fhe_uint_prepared s) (Interpreter_rd_val_fhe_uint s) (Interpreter_rd_val_fhe_uint_prepared s) (Interpreter_rdu_val_fhe_uint s) (Interpreter_rdu_val_fhe_uint_prepared s) (Interpreter_mu_val_fhe_uint s) (Interpreter_mu_val_fhe_uint_prepared s) (Interpreter_pcu_val_fhe_uint s) (Interpreter_pcu_val_fhe_uint_prepared s).

Definition set_Interpreter_rs2_addr_fhe_uint_prepared (s : Interpreter) (x : FheUintPrepared) : Interpreter :=
  mk_Interpreter (Interpreter_cycle s) (Interpreter_vm_debug s) (Interpreter_verbose_timings s) (Interpreter_threads s) (Interpreter_instruction_set s) (Interpreter_rom_bits_size s) (Interpreter_rom_size s) (Interpreter_imm_rom s) (Interpreter_rs1_rom s) (Interpreter_rs2_rom s) (Interpreter_rd_rom s) (Interpreter_rdu_rom s) (Interpreter_mu_rom s) (Interpreter_pcu_rom s) (Interpreter_reg_bit_size s) (Interpreter_registers s) (Interpreter_ram_bit_size s) (Interpreter_ram_size s) (Interpreter_ram s) (Interpreter_ram_addr_fhe_uint s) (Interpreter_ram_val_fhe_uint s) (Interpreter_ram_addr_fhe_uint_prepared s) (Interpreter_ram_val_fhe_uint_prepared s) (Interpreter_pc_fhe_uint s) (Interpreter_pc_fhe_uint_prepared s) (Interpreter_rs1_addr_fhe_uint s) (Interpreter_rs1_addr_fhe_uint_prepared s) (Interpreter_rs1_val_fhe_uint s) (Interpreter_rs1_val_fhe_uint_prepared s) (Interpreter_rs2_addr_fhe_uint s) x (Interpreter_rs2_val_fhe_uint s) (Interpreter_rs2_val_fhe_uint_prepared s) (Interpreter_imm_val_fhe_uint s) (Interpreter_imm_val_fhe_uint_prepared s) (Interpreter_rd_addr_fhe_uint s) (Interpreter_rd_addr_fhe_uint_prepared s) (Interpreter_rd_val_fhe_uint s) (Interpreter_rd_val_fhe_uint_prepared s) (Interpreter_rdu_val_fhe_uint s) (Interpreter_rdu_val_fhe_uint_prepared s) (Interpreter_mu_val_fhe_uint s) (Interpreter_mu_val_fhe_uint_prepared s) (Interpreter_pcu_val_fhe_uint s) (Interpreter_pcu_val_fhe_uint_prepared s).

Definition set_Interpreter_rs2_val_fhe_uint (s : Interpreter) (x : FheUint) : Interpreter :=
  mk_Interpreter (Interpreter_cycle s) (Interpreter_vm_debug s) (Interpreter_verbose_timings s) (Interpreter_threads s) (Interpreter_instruction_set s) (Interpreter_rom_bits_size s) (Interpreter_rom_size s) (Interpreter_imm_rom s) (Interpreter_rs1_rom s) (Interpreter_rs2_rom s) (Interpreter_rd_rom s) (Interpreter_rdu_rom s) (Interpreter_mu_rom s) (Interpreter_pcu_rom s) (Interpreter_reg_bit_size s) (Interpreter_registers s) (Interpreter_ram_bit_size s) (Interpreter_ram_size s) (Interpreter_ram s) (Interpreter_ram_addr_fhe_uint s) (Interpreter_ram_val_fhe_uint s) (Interpreter_ram_addr_fhe_uint_prepared s) (Interpreter_ram_val_fhe_uint_prepared s) (Interpreter_pc_fhe_uint s) (Interpreter_pc_fhe_uint_prepared s) (Interpreter_rs1_addr_fhe_uint s) (Interpreter_rs1_addr_fhe_uint_prepared s) (Interpreter_rs1_val_fhe_uint s) (Interpreter_rs1_val_fhe_uint_prepared s) (Interpreter_rs2_addr_fhe_uint s) (Interpreter_rs2_addr_fhe_uint_prepared s) x (Interpreter_rs2_val_fhe_uint_prepared s) (Interpreter_imm_val_fhe_uint s) (Interpreter_imm_val_fhe_uint_prepared s) (Interpreter_rd_addr_fhe_uint s) (Interpreter_rd_addr_fhe_uint_prepared s) (Interpreter_rd_val_fhe_uint s) (Interpreter_rd_val_fhe_uint_prepared s) (Interpreter_rdu_val_fhe_uint s) (Interpreter_rdu_val_fhe_uint_prepared s) (Interpreter_mu_val_fhe_uint s) (Interpreter_mu_val_fhe_uint_prepared s) (Interpreter_pcu_val_fhe_uint s) (Interpreter_pcu_val_fhe_uint_prepared s).

Definition set_Interpreter_rs2_val_fhe_uint_prepared (s : Interpreter) (x : FheUintPrepared) : Interpreter :=
  mk_Interpreter (Interpreter_cycle s) (Interpreter_vm_debug s) (Interpreter_verbose_timings s) (Interpreter_threads s) (Interpreter_instruction_set s) (Interpreter_rom_bits_size s) (Interpreter_rom_size s) (Interpreter_imm_rom s) (Interpreter_rs1_rom s) (Interpreter_rs2_rom s) (Interpreter_rd_rom s) (Interpreter_rdu_rom s) (Interpreter_mu_rom s) (Interpreter_pcu_rom s) (Interpreter_reg_bit_size s) (Interpreter_registers s) (Interpreter_ram_bit_size s) (Interpreter_ram_size s) (Interpreter_ram s) (Interpreter_ram_addr_fhe_uint s) (Interpreter_ram_val_fhe_uint s) (Interpreter_ram_addr_fhe_uint_prepared s) (Interpreter_ram_val_fhe_uint_prepared s) (Interpreter_pc_fhe_uint s) (Interpreter_pc_fhe_uint_prepared s) (Interpreter_rs1_addr_fhe_uint s) (Interpreter_rs1_addr_fhe_uint_prepared s) (Interpreter_rs1_val_fhe_uint s) (Interpreter_rs1_val_fhe_uint_prepared s) (Interpreter_rs2_addr_fhe_uint s) (Interpreter_rs2_addr_fhe_uint_prepared s) (Interpreter_rs2_val_fhe_uint s) x (Interpreter_imm_val_fhe_uint s) (Interpreter_imm_val_fhe_uint_prepared s) (Interpreter_rd_addr_fhe_uint s) (Interpreter_rd_addr_fhe_uint_prepared s) (Interpreter_rd_val_fhe_uint s) (Interpreter_rd_val_fhe_uint_prepared s) (Interpreter_rdu_val_fhe_uint s) (Interpreter_rdu_val_fhe_uint_prepared s) (Interpreter_mu_val_fhe_uint s) (Interpreter_mu_val_fhe_uint_prepared s) (Interpreter_pcu_val_fhe_uint s) (Interpreter_pcu_val_fhe_uint_prepared s).

Definition set_Interpreter_imm_val_fhe_uint (s : Interpreter) (x : FheUint) : Interpreter :=
  mk_Interpreter (Interpreter_cycle s) (Interpreter_vm_debug s) (Interpreter_verbose_timings s) (Interpreter_threads s) (Interpreter_instruction_set s) (Interpreter_rom_bits_size s) (Interpreter_rom_size s) (Interpreter_imm_rom s) (Interpreter_rs1_rom s) (Interpreter_rs2_rom s) (Interpreter_rd_rom s) (Interpreter_rdu_rom s) (Interpreter_mu_rom s) (Interpreter_pcu_rom s) (Interpreter_reg_bit_size s) (Interpreter_registers s) (Interpreter_ram_bit_size s) (Interpreter_ram_size s) (Interpreter_ram s) (Interpreter_ram_addr_fhe_uint s) (Interpreter_ram_val_fhe_uint s) (Interpreter_ram_addr_fhe_uint_prepared s) (Interpreter_ram_val_fhe_uint_prepared s) (Interpreter_pc_fhe_uint s) (Interpreter_pc_fhe_uint_prepared s) (Interpreter_rs1_addr_fhe_uint s) (Interpreter_rs1_addr_fhe_uint_prepared s) (Interpreter_rs1_val_fhe_uint s) (Interpreter_rs1_val_fhe_uint_prepared s) (Interpreter_rs2_addr_fhe_uint s) (Interpreter_rs2_addr_fhe_uint_prepared s) (Interpreter_rs2_val_fhe_uint s) (Interpreter_rs2_val_fhe_uint_prepared s) x (Interpreter_imm_val_fhe_uint_prepared s) (Interpreter_rd_addr_fhe_uint s) (Interpreter_rd_addr_fhe_uint_prepared s) (Interpreter_rd_val_fhe_uint s) (Interpreter_rd_val_fhe_uint_prepared s) (Interpreter_rdu_val_fhe_uint s) (Interpreter_rdu_val_fhe_uint_prepared s) (Interpreter_mu_val_fhe_uint s) (Interpreter_mu_val_fhe_uint_prepared s) (Interpreter_pcu_val_fhe_uint s) (Interpreter_pcu_val_fhe_uint_prepared s).

Definition set_Interpreter_imm_val_fhe_uint_prepared (s : Interpreter) (x : FheUintPrepared) : Interpreter :=
  mk_Interpreter (Interpreter_cycle s) (Interpreter_vm_debug s) (Interpreter_verbose_timings s) (Interpreter_threads s) (Interpreter_instruction_set s) (Interpreter_rom_bits_size s) (Interpreter_rom_size s) (Interpreter_imm_rom s) (Interpreter_rs1_rom s) (Interpreter_rs2_rom s) (Interpreter_rd_rom s) (Interpreter_rdu_rom s) (Interpreter_mu_rom s) (Interpreter_pcu_rom s) (Interpreter_reg_bit_size s) (Interpreter_registers s) (Interpreter_ram_bit_size s) (Interpreter_ram_size s) (Interpreter_ram s) (Interpreter_ram_addr_fhe_uint s) (Interpreter_ram_val_fhe_uint s) (Interpreter_ram_addr_fhe_uint_prepared s) (Interpreter_ram_val_fhe_uint_prepared s) (Interpreter_pc_fhe_uint s) (Interpreter_pc_fhe_uint_prepared s) (Interpreter_rs1_addr_fhe_uint s) (Interpreter_rs1_addr_fhe_uint_prepared s) (Interpreter_rs1_val_fhe_uint s) (Interpreter_rs1_val_fhe_uint_prepared s) (Interpreter_rs2_addr_fhe_uint s) (Interpreter_rs2_addr_fhe_uint_prepared s) (Interpreter_rs2_val_fhe_uint s) (Interpreter_rs2_val_fhe_uint_prepared s) (Interpreter_imm_val_fhe_uint s) x (Interpreter_rd_addr_fhe_uint s) (Interpreter_rd_addr_fhe_uint_prepared s) (Interpreter_rd_val_fhe_uint s) (Interpreter_rd_val_fhe_uint_prepared s) (Interpreter_rdu_val_fhe_uint s) (Interpreter_rdu_val_fhe_uint_prepared s) (Interpreter_mu_val_fhe_uint s) (Interpreter_mu_val_fhe_uint_prepared s) (Interpreter_pcu_val_fhe_uint s) (Interpreter_pcu_val_fhe_uint_prepared s).

Definition set_Interpreter_rd_addr_fhe_uint (s : Interpreter) (x : FheUint) : Interpreter :=
  mk_Interpreter (Interpreter_cycle s) (Interpreter_vm_debug s) (Interpreter_verbose_timings s) (Interpreter_threads s) (Interpreter_instruction_set s) (Interpreter_rom_bits_size s) (Interpreter_rom_size s) (Interpreter_imm_rom s) (Interpreter_rs1_rom s) (Interpreter_rs2_rom s) (Interpreter_rd_rom s) (Interpreter_rdu_rom s) (Interpreter_mu_rom s) (Interpreter_pcu_rom s) (Interpreter_reg_bit_size s) (Interpreter_registers s) (Interpreter_ram_bit_size s) (Interpreter_ram_size s) (Interpreter_ram s) (Interpreter_ram_addr_fhe_uint s) (Interpreter_ram_val_fhe_uint s) (Interpreter_ram_addr_fhe_uint_prepared s) (Interpreter_ram_val_fhe_uint_prepared s) (Interpreter_pc_fhe_uint s) (Interpreter_pc_fhe_uint_prepared s) (Interpreter_rs1_addr_fhe_uint s) (Interpreter_rs1_addr_fhe_uint_prepared s) (Interpreter_rs1_val_fhe_uint s) (Interpreter_rs1_val_fhe_uint_prepared s) (Interpreter_rs2_addr_fhe_uint s) (Interpreter_rs2_addr_fhe_uint_prepared s) (Interpreter_rs2_val_fhe_uint s) (Interpreter_rs2_val_fhe_uint_prepared s) (Interpreter_imm_val_fhe_uint s) (Interpreter_imm_val_fhe_uint_prepared s) x (Interpreter_rd_addr_fhe_uint_prepared s) (Interpreter_rd_val_fhe_uint s) (Interpreter_rd_val_fhe_uint_prepared s) (Interpreter_rdu_val_fhe_uint s) (Interpreter_rdu_val_fhe_uint_prepared s) (Interpreter_mu_val_fhe_uint s) (Interpreter_mu_val_fhe_uint_prepared s) (Interpreter_pcu_val_fhe_uint s) (Interpreter_pcu_val_fhe_uint_prepared s).

Definition set_Interpreter_rd_addr_fhe_uint_prepared (s : Interpreter) (x : FheUintPrepared) : Interpreter :=
  mk_Interpreter (Interpreter_cycle s) (Interpreter_vm_debug s) (Interpreter_verbose_timings s) (Interpreter_threads s) (Interpreter_instruction_set s) (Interpreter_rom_bits_size s) (Interpreter_rom_size s) (Interpreter_imm_rom s) (Interpreter_rs1_rom s) (Interpreter_rs2_rom s) (Interpreter_rd_rom s) (Interpreter_rdu_rom s) (Interpreter_mu_rom s) (Interpreter_pcu_rom s) (Interpreter_reg_bit_size s) (Interpreter_registers s) (Interpreter_ram_bit_size s) (Interpreter_ram_size s) (Interpreter_ram s) (Interpreter_ram_addr_fhe_uint s) (Interpreter_ram_val_fhe_uint s) (Interpreter_ram_addr_fhe_uint_prepared s) (Interpreter_ram_val_fhe_uint_prepared s) (Interpreter_pc_fhe_uint s) (Interpreter_pc_fhe_uint_prepared s) (Interpreter_rs1_addr_fhe_uint s) (Interpreter_rs1_addr_fhe_uint_prepared s) (Interpreter_rs1_val_fhe_uint s) (Interpreter_rs1_val_fhe_uint_prepared s) (Interpreter_rs2_addr_fhe_uint s) (Interpreter_rs2_addr_fhe_uint_prepared s) (Interpreter_rs2_val_fhe_uint s) (Interpreter_rs2_val_fhe_uint_prepared s) (Interpreter_imm_val_fhe_uint s) (Interpreter_imm_val_fhe_uint_prepared s) (Interpreter_rd_addr_fhe_uint s) x (Interpreter_rd_val_fhe_uint s) (Interpreter_rd_val_fhe_uint_prepared s) (Interpreter_rdu_val_fhe_uint s) (Interpreter_rdu_val_fhe_uint_prepared s) (Interpreter_mu_val_fhe_uint s) (Interpreter_mu_val_fhe_uint_prepared s) (Interpreter_pcu_val_fhe_uint s) (Interpreter_pcu_val_fhe_uint_prepared s).

Definition set_Interpreter_rd_val_fhe_uint (s : Interpreter) (x : FheUint) : Interpreter :=
  mk_Interpreter (Interpreter_cycle s) (Interpreter_vm_debug s) (Interpreter_verbose_timings s) (Interpreter_threads s) (Interpreter_instruction_set s) (Interpreter_rom_bits_size s) (Interpreter_rom_size s) (Interpreter_imm_rom s) (Interpreter_rs1_rom s) (Interpreter_rs2_rom s) (Interpreter_rd_rom s) (Interpreter_rdu_rom s) (Interpreter_mu_rom s) (Interpreter_pcu_rom s) (Interpreter_reg_bit_size s) (Interpreter_registers s) (Interpreter_ram_bit_size s) (Interpreter_ram_size s) (Interpreter_ram s) (Interpreter_ram_addr_fhe_uint s) (Interpreter_ram_val_fhe_uint s) (Interpreter_ram_addr_fhe_uint_prepared s) (Interpreter_ram_val_fhe_uint_prepared s) (Interpreter_pc_fhe_uint s) (Interpreter_pc_fhe_uint_prepared s) (Interpreter_rs1_addr_fhe_uint s) (Interpreter_rs1_addr_fhe_uint_prepared s) (Interpreter_rs1_val_fhe_uint s) (Interpreter_rs1_val_fhe_uint_prepared s) (Interpreter_rs2_addr_fhe_uint s) (Interpreter_rs2_addr_fhe_uint_prepared s) (Interpreter_rs2_val_fhe_uint s) (Interpreter_rs2_val_fhe_uint_prepared s) (Interpreter_imm_val_fhe_uint s) (Interpreter_imm_val_fhe_uint_prepared s) (Interpreter_rd_addr_fhe_uint s) (Interpreter_rd_addr_fhe_uint_prepared s) x (Interpreter_rd_val_fhe_uint_prepared s) (Interpreter_rdu_val_fhe_uint s) (Interpreter_rdu_val_fhe_uint_prepared s) (Interpreter_mu_val_fhe_uint s) (Interpreter_mu_val_fhe_uint_prepared s) (Interpreter_pcu_val_fhe_uint s) (Interpreter_pcu_val_fhe_uint_prepared s).

Definition set_Interpreter_rd_val_fhe_uint_prepared (s : Interpreter) (x : FheUintPrepared) : Interpreter :=
  mk_Interpreter (Interpreter_cycle s) (Interpreter_vm_debug s) (Interpreter_verbose_timings s) (Interpreter_threads s) (Interpreter_instruction_set s) (Interpreter_rom_bits_size s) (Interpreter_rom_size s) (Interpreter_imm_rom s) (Interpreter_rs1_rom s) (Interpreter_rs2_rom s) (Interpreter_rd_rom s) (Interpreter_rdu_rom s) (Interpreter_mu_rom s) (Interpreter_pcu_rom s) (Interpreter_reg_bit_size s) (Interpreter_registers s) (Interpreter_ram_bit_size s) (Interpreter_ram_size s) (Interpreter_ram s) (Interpreter_ram_addr_fhe_uint s) (Interpreter_ram_val_fhe_uint s) (Interpreter_ram_addr_fhe_uint_prepared s) (Interpreter_ram_val_fhe_uint_prepared s) (Interpreter_pc_fhe_uint s) (Interpreter_pc_fhe_uint_prepared s) (Interpreter_rs1_addr_fhe_uint s) (Interpreter_rs1_addr_fhe_uint_prepared s) (Interpreter_rs1_val_fhe_uint s) (Interpreter_rs1_val_fhe_uint_prepared s) (Interpreter_rs2_addr_fhe_uint s) (Interpreter_rs2_addr_fhe_uint_prepared s) (Interpreter_rs2_val_fhe_uint s) (Interpreter_rs2_val_fhe_uint_prepared s) (Interpreter_imm_val_fhe_uint s) (Interpreter_imm_val_fhe_uint_prepared s) (Interpreter_rd_addr_fhe_uint s) (Interpreter_rd_addr_fhe_uint_prepared s) (Interpreter_rd_val_fhe_uint s) x (Interpreter_rdu_val_fhe_uint s) (Interpreter_rdu_val_fhe_uint_prepared s) (Interpreter_mu_val_fhe_uint s) (Interpreter_mu_val_fhe_uint_prepared s) (Interpreter_pcu_val_fhe_uint s) (Interpreter_pcu_val_fhe_uint_prepared s).

Definition set_Interpreter_rdu_val_fhe_uint (s : Interpreter) (x : FheUint) : Interpreter :=
  mk_Interpreter (Interpreter_cycle s) (Interpreter_vm_debug s) (Interpreter_verbose_timings s) (Interpreter_threads s) (Interpreter_instruction_set s) (Interpreter_rom_bits_size s) (Interpreter_rom_size s) (Interpreter_imm_rom s) (Interpreter_rs1_rom s) (Interpreter_rs2_rom s) (Interpreter_rd_rom s) (Interpreter_rdu_rom s) (Interpreter_mu_rom s) (Interpreter_pcu_rom s) (Interpreter_reg_bit_size s) (Interpreter_registers s) (Interpreter_ram_bit_size s) (Interpreter_ram_size s) (Interpreter_ram s) (Interpreter_ram_addr_fhe_uint s) (Interpreter_ram_val_fhe_uint s) (Interpreter_ram_addr_fhe_uint_prepared s) (Interpreter_ram_val_fhe_uint_prepared s) (Interpreter_pc_fhe_uint s) (Interpreter_pc_fhe_uint_prepared s) (Interpreter_rs1_addr_fhe_uint s) (Interpreter_rs1_addr_fhe_uint_prepared s) (Interpreter_rs1_val_fhe_uint s) (Interpreter_rs1_val_fhe_uint_prepared s) (Interpreter_rs2_addr_fhe_uint s) (Interpreter_rs2_addr_fhe_uint_prepared s) (Interpreter_rs2_val_fhe_uint s) (Interpreter_rs2_val_fhe_uint_prepared s) (Interpreter_imm_val_fhe_uint s) (Interpreter_imm_val_fhe_uint_prepared s) (Interpreter_rd_addr_fhe_uint s) (Interpreter_rd_addr_fhe_uint_prepared s) (Interpreter_rd_val_fhe_uint s) (Interpreter_rd_val_fhe_uint_prepared s) x (Interpreter_rdu_val_fhe_uint_prepared s) (Interpreter_mu_val_fhe_uint s) (Interpreter_mu_val_fhe_uint_prepared s) (Interpreter_pcu_val_fhe_uint s) (Interpreter_pcu_val_fhe_uint_prepared s).

Definition set_Interpreter_rdu_val_fhe_uint_prepared (s : Interpreter) (x : FheUintPrepared) : Interpreter :=
  mk_Interpreter (Interpreter_cycle s) (Interpreter_vm_debug s) (Interpreter_verbose_timings s) (Interpreter_threads s) (Interpreter_instruction_set s) (Interpreter_rom_bits_size s) (Interpreter_rom_size s) (Interpreter_imm_rom s) (Interpreter_rs1_rom s) (Interpreter_rs2_rom s) (Interpreter_rd_rom s) (Interpreter_rdu_rom s) (Interpreter_mu_rom s) (Interpreter_pcu_rom s) (Interpreter_reg_bit_size s) (Interpreter_registers s) (Interpreter_ram_bit_size s) (Interpreter_ram_size s) (Interpreter_ram s) (Interpreter_ram_addr_fhe_uint s) (Interpreter_ram_val_fhe_uint s) (Interpreter_ram_addr_fhe_uint_prepared s) (Interpreter_ram_val_fhe_uint_prepared s) (Interpreter_pc_fhe_uint s) (Interpreter_pc_fhe_uint_prepared s) (Interpreter_rs1_addr_fhe_uint s) (Interpreter_rs1_addr_fhe_uint_prepared s) (Interpreter_rs1_val_fhe_uint s) (Interpreter_rs1_val_fhe_uint_prepared s) (Interpreter_rs2_addr_fhe_uint s) (Interpreter_rs2_addr_fhe_uint_prepared s) (Interpreter_rs2_val_fhe_uint s) (Interpreter_rs2_val_fhe_uint_prepared s) (Interpreter_imm_val_fhe_uint s) (Interpreter_imm_val_fhe_uint_prepared s) (Interpreter_rd_addr_fhe_uint s) (Interpreter_rd_addr_fhe_uint_prepared s) (Interpreter_rd_val_fhe_uint s) (Interpreter_rd_val_fhe_uint_prepared s) (Interpreter_rdu_val_fhe_uint s) x (Interpreter_mu_val_fhe_uint s) (Interpreter_mu_val_fhe_uint_prepared s) (Interpreter_pcu_val_fhe_uint s) (Interpreter_pcu_val_fhe_uint_prepared s).

Definition set_Interpreter_mu_val_fhe_uint (s : Interpreter) (x : FheUint) : Interpreter :=
  mk_Interpreter (Interpreter_cycle s) (Interpreter_vm_debug s) (Interpreter_verbose_timings s) (Interpreter_threads s) (Interpreter_instruction_set s) (Interpreter_rom_bits_size s) (Interpreter_rom_size s) (Interpreter_imm_rom s) (Interpreter_rs1_rom s) (Interpreter_rs2_rom s) (Interpreter_rd_rom s) (Interpreter_rdu_rom s) (Interpreter_mu_rom s) (Interpreter_pcu_rom s) (Interpreter_reg_bit_size s) (Interpreter_registers s) (Interpreter_ram_bit_size s) (Interpreter_ram_size s) (Interpreter_ram s) (Interpreter_ram_addr_fhe_uint s) (Interpreter_ram_val_fhe_uint s) (Interpreter_ram_addr_fhe_uint_prepared s) (Interpreter_ram_val_fhe_uint_prepared s) (Interpreter_pc_fhe_uint s) (Interpreter_pc_fhe_uint_prepared s) (Interpreter_rs1_addr_fhe_uint s) (Interpreter_rs1_addr_fhe_uint_prepared s) (Interpreter_rs1_val_fhe_uint s) (Interpreter_rs1_val_fhe_uint_prepared s) (Interpreter_rs2_addr_fhe_uint s) (Interpreter_rs2_addr_fhe_uint_prepared s) (Interpreter_rs2_val_fhe_uint s) (Interpreter_rs2_val_fhe_uint_prepared s) (Interpreter_imm_val_fhe_uint s) (Interpreter_imm_val_fhe_uint_prepared s) (Interpreter_rd_addr_fhe_uint s) (Interpreter_rd_addr_fhe_uint_prepared s) (Interpreter_rd_val_fhe_uint s) (Interpreter_rd_val_fhe_uint_prepared s) (Interpreter_rdu_val_fhe_uint s) (Interpreter_rdu_val_fhe_uint_prepared s) x (Interpreter_mu_val_fhe_uint_prepared s) (Interpreter_pcu_val_fhe_uint s) (Interpreter_pcu_val_fhe_uint_prepared s).

Definition set_Interpreter_mu_val_fhe_uint_prepared (s : Interpreter) (x : FheUintPrepared) : Interpreter :=
  mk_Interpreter (Interpreter_cycle s) (Interpreter_vm_debug s) (Interpreter_verbose_timings s) (Interpreter_threads s) (Interpreter_instruction_set s) (Interpreter_rom_bits_size s) (Interpreter_rom_size s) (Interpreter_imm_rom s) (Interpreter_rs1_rom s) (Interpreter_rs2_rom s) (Interpreter_rd_rom s) (Interpreter_rdu_rom s) (Interpreter_mu_rom s) (Interpreter_pcu_rom s) (Interpreter_reg_bit_size s) (Interpreter_registers s) (Interpreter_ram_bit_size s) (Interpreter_ram_size s) (Interpreter_ram s) (Interpreter_ram_addr_fhe_uint s) (Interpreter_ram_val_fhe_uint s) (Interpreter_ram_addr_fhe_uint_prepared s) (Interpreter_ram_val_fhe_uint_prepared s) (Interpreter_pc_fhe_uint s) (Interpreter_pc_fhe_uint_prepared s) (Interpreter_rs1_addr_fhe_uint s) (Interpreter_rs1_addr_fhe_uint_prepared s) (Interpreter_rs1_val_fhe_uint s) (Interpreter_rs1_val_fhe_uint_prepared s) (Interpreter_rs2_addr_fhe_uint s) (Interpreter_rs2_addr_fhe_uint_prepared s) (Interpreter_rs2_val_fhe_uint s) (Interpreter_rs2_val_fhe_uint_prepared s) (Interpreter_imm_val_fhe_uint s) (Interpreter_imm_val_fhe_uint_prepared s) (Interpreter_rd_addr_fhe_uint s) (Interpreter_rd_addr_fhe_uint_prepared s) (Interpreter_rd_val_fhe_uint s) (Interpreter_rd_val_fhe_uint_prepared s) (Interpreter_rdu_val_fhe_uint s) (Interpreter_rdu_val_fhe_uint_prepared s) (Interpreter_mu_val_fhe_uint s) x (Interpreter_pcu_val_fhe_uint s) (Interpreter_pcu_val_fhe_uint_prepared s).

Definition set_Interpreter_pcu_val_fhe_uint (s : Interpreter) (x : FheUint) : Interpreter :=
  mk_Interpreter (Interpreter_cycle s) (Interpreter_vm_debug s) (Interpreter_verbose_timings s) (Interpreter_threads s) (Interpreter_instruction_set s) (Interpreter_rom_bits_size s) (Interpreter_rom_size s) (Interpreter_imm_rom s) (Interpreter_rs1_rom s) (Interpreter_rs2_rom s) (Interpreter_rd_rom s) (Interpreter_rdu_rom s) (Interpreter_mu_rom s) (Interpreter_pcu_rom s) (Interpreter_reg_bit_size s) (Interpreter_registers s) (Interpreter_ram_bit_size s) (Interpreter_ram_size s) (Interpreter_ram s) (Interpreter_ram_addr_fhe_uint s) (Interpreter_ram_val_fhe_uint s) (Interpreter_ram_addr_fhe_uint_prepared s) (Interpreter_ram_val_fhe_uint_prepared s) (Interpreter_pc_fhe_uint s) (Interpreter_pc_fhe_uint_prepared s) (Interpreter_rs1_addr_fhe_uint s) (Interpreter_rs1_addr_fhe_uint_prepared s) (Interpreter_rs1_val_fhe_uint s) (Interpreter_rs1_val_fhe_uint_prepared s) (Interpreter_rs2_addr_fhe_uint s) (Interpreter_rs2_addr_fhe_uint_prepared s) (Interpreter_rs2_val_fhe_uint s) (Interpreter_rs2_val_fhe_uint_prepared s) (Interpreter_imm_val_fhe_uint s) (Interpreter_imm_val_fhe_uint_prepared s) (Interpreter_rd_addr_fhe_uint s) (Interpreter_rd_addr_fhe_uint_prepared s) (Interpreter_rd_val_fhe_uint s) (Interpreter_rd_val_fhe_uint_prepared s) (Interpreter_rdu_val_fhe_uint s) (Interpreter_rdu_val_fhe_uint_prepared s) (Interpreter_mu_val_fhe_uint s) (Interpreter_mu_val_fhe_uint_prepared s) x (Interpreter_pcu_val_fhe_uint_prepared s).

Definition set_Interpreter_pcu_val_fhe_uint_prepared (s : Interpreter) (x : FheUintPrepared) : Interpreter :=
  mk_Interpreter (Interpreter_cycle s) (Interpreter_vm_debug s) (Interpreter_verbose_timings s) (Interpreter_threads s) (Interpreter_instruction_set s) (Interpreter_rom_bits_size s) (Interpreter_rom_size s) (Interpreter_imm_rom s) (Interpreter_rs1_rom s) (Interpreter_rs2_rom s) (Interpreter_rd_rom s) (Interpreter_rdu_rom s) (Interpreter_mu_rom s) (Interpreter_pcu_rom s) (Interpreter_reg_bit_size s) (Interpreter_registers s) (Interpreter_ram_bit_size s) (Interpreter_ram_size s) (Interpreter_ram s) (Interpreter_ram_addr_fhe_uint s) (Interpreter_ram_val_fhe_uint s) (Interpreter_ram_addr_fhe_uint_prepared s) (Interpreter_ram_val_fhe_uint_prepared s) (Interpreter_pc_fhe_uint s) (Interpreter_pc_fhe_uint_prepared s) (Interpreter_rs1_addr_fhe_uint s) (Interpreter_rs1_addr_fhe_uint_prepared s) (Interpreter_rs1_val_fhe_uint s) (Interpreter_rs1_val_fhe_uint_prepared s) (Interpreter_rs2_addr_fhe_uint s) (Interpreter_rs2_addr_fhe_uint_prepared s) (Interpreter_rs2_val_fhe_uint s) (Interpreter_rs2_val_fhe_uint_prepared s) (Interpreter_imm_val_fhe_uint s) (Interpreter_imm_val_fhe_uint_prepared s) (Interpreter_rd_addr_fhe_uint s) (Interpreter_rd_addr_fhe_uint_prepared s) (Interpreter_rd_val_fhe_uint s) (Interpreter_rd_val_fhe_uint_prepared s) (Interpreter_rdu_val_fhe_uint s) (Interpreter_rdu_val_fhe_uint_prepared s) (Interpreter_mu_val_fhe_uint s) (Interpreter_mu_val_fhe_uint_prepared s) (Interpreter_pcu_val_fhe_uint s) x.

(** fhevm/src/rd_update.rs:79-165 *)
Definition RD_UPDATE_eval_enc (p : Rust.profile) (self : RD_UPDATE) (threads : usize) (module : Module) (res : FheUint) (rs1 : FheUintPrepared) (rs2 : FheUintPrepared) (imm : FheUintPrepared) (pc : FheUintPrepared) (ram : FheUint) (keys : Keys) (scratch : Scratch) : option FheUint :=
  match self with
  | RD_UPDATE_NONE => Some res
  | RD_UPDATE_AUIPC => t1 <- FheUint_bdd_2w_to_1w_multi_thread E res codegen_auipc threads module pc imm keys scratch ;;
  let res := t1 in
  Some res
  | RD_UPDATE_JAL => t2 <- FheUint_bdd_2w_to_1w_multi_thread E res codegen_jalr threads module pc pc keys scratch ;;
  let res := t2 in
  Some res
  | RD_UPDATE_JALR => t3 <- FheUint_bdd_2w_to_1w_multi_thread E res codegen_jalr threads module pc pc keys scratch ;;
  let res := t3 in
  Some res
  | RD_UPDATE_LUI => t4 <- FheUint_bdd_2w_to_1w_multi_thread E res codegen_lui threads module imm imm keys scratch ;;
  let res := t4 in
  Some res
  | RD_UPDATE_ADD => t5 <- FheUint_add_multi_thread E res threads module rs1 rs2 keys scratch ;;
  let res := t5 in
  Some res
  | RD_UPDATE_SUB => t6 <- FheUint_sub_multi_thread E res threads module rs1 rs2 keys scratch ;;
  let res := t6 in
  Some res
  | RD_UPDATE_SLL => t7 <- FheUint_sll_multi_thread E res threads module rs1 rs2 keys scratch ;;
  let res := t7 in
  Some res
  | RD_UPDATE_SLT => t8 <- FheUint_slt_multi_thread E res threads module rs1 rs2 keys scratch ;;
  let res := t8 in
  Some res
  | RD_UPDATE_SLTU => t9 <- FheUint_sltu_multi_thread E res threads module rs1 rs2 keys scratch ;;
  let res := t9 in
  Some res
  | RD_UPDATE_XOR => t10 <- FheUint_xor_multi_thread E res threads module rs1 rs2 keys scratch ;;
  let res := t10 in
  Some res
  | RD_UPDATE_SRL => t11 <- FheUint_srl_multi_thread E res threads module rs1 rs2 keys scratch ;;
  let res := t11 in
  Some res
  | RD_UPDATE_SRA => t12 <- FheUint_sra_multi_thread E res threads module rs1 rs2 keys scratch ;;
  let res := t12 in
  Some res
  | RD_UPDATE_OR => t13 <- FheUint_or_multi_thread E res threads module rs1 rs2 keys scratch ;;
  let res := t13 in
  Some res
  | RD_UPDATE_ADDI => t14 <- FheUint_add_multi_thread E res threads module rs1 imm keys scratch ;;
  let res := t14 in
  Some res
  | RD_UPDATE_AND => t15 <- FheUint_and_multi_thread E res threads module rs1 rs2 keys scratch ;;
  let res := t15 in
  Some res
  | RD_UPDATE_SLTIU => t16 <- FheUint_sltu_multi_thread E res threads module rs1 imm keys scratch ;;
  let res := t16 in
  Some res
  | RD_UPDATE_XORI => t17 <- FheUint_xor_multi_thread E res threads module rs1 imm keys scratch ;;
  let res := t17 in
  Some res
  | RD_UPDATE_ORI => t18 <- FheUint_or_multi_thread E res threads module rs1 imm keys scratch ;;
  let res := t18 in
  Some res
  | RD_UPDATE_ANDI => t19 <- FheUint_and_multi_thread E res threads module rs1 imm keys scratch ;;
  let res := t19 in
  Some res
  | RD_UPDATE_SLLI => t20 <- FheUint_sll_multi_thread E res threads module rs1 imm keys scratch ;;
  let res := t20 in
  Some res
  | RD_UPDATE_SRLI => t21 <- FheUint_srl_multi_thread E res threads module rs1 imm keys scratch ;;
  let res := t21 in
  Some res
  | RD_UPDATE_SRAI => t22 <- FheUint_sra_multi_thread E res threads module rs1 imm keys scratch ;;
  let res := t22 in
  Some res
  | RD_UPDATE_SLTI => t23 <- FheUint_slt_multi_thread E res threads module rs1 imm keys scratch ;;
  let res := t23 in
  Some res
  | RD_UPDATE_LB => t24 <- Module_glwe_copy_1 E module res ram ;;
  let res := t24 in
  t25 <- FheUint_zero_byte E res module (Rust.lit 1) keys scratch ;;
  let res := t25 in
  t26 <- FheUint_zero_byte E res module (Rust.lit 2) keys scratch ;;
  let res := t26 in
  t27 <- FheUint_zero_byte E res module (Rust.lit 3) keys scratch ;;
  let res := t27 in
  Some res
  | RD_UPDATE_LBU => t28 <- Module_glwe_copy_1 E module res ram ;;
  let res := t28 in
  t29 <- FheUint_zero_byte E res module (Rust.lit 1) keys scratch ;;
  let res := t29 in
  t30 <- FheUint_zero_byte E res module (Rust.lit 2) keys scratch ;;
  let res := t30 in
  t31 <- FheUint_zero_byte E res module (Rust.lit 3) keys scratch ;;
  let res := t31 in
  Some res
  | RD_UPDATE_LH => t32 <- Module_glwe_copy_1 E module res ram ;;
  let res := t32 in
  t33 <- FheUint_zero_byte E res module (Rust.lit 2) keys scratch ;;
  let res := t33 in
  t34 <- FheUint_zero_byte E res module (Rust.lit 3) keys scratch ;;
  let res := t34 in
  t35 <- FheUint_sext E res module (Rust.lit 1) keys scratch ;;
  let res := t35 in
  Some res
  | RD_UPDATE_LHU => t36 <- Module_glwe_copy_1 E module res ram ;;
  let res := t36 in
  t37 <- FheUint_zero_byte E res module (Rust.lit 2) keys scratch ;;
  let res := t37 in
  t38 <- FheUint_zero_byte E res module (Rust.lit 3) keys scratch ;;
  let res := t38 in
  Some res
  | RD_UPDATE_LW => t39 <- Module_glwe_copy_1 E module res ram ;;
  let res := t39 in
  Some res
  | _ => None
  end.

(** fhevm/src/ram_update.rs:48-113 *)
Definition RAM_UPDATE_eval_enc (p : Rust.profile) (self : RAM_UPDATE) (_threads : usize) (module : Module) (res : FheUint) (rs2 : FheUint) (loaded : FheUint) (offset : FheUintPrepared) (keys : Keys) (scratch : Scratch) : option FheUint :=
  match self with
  | RAM_UPDATE_NONE => t1 <- Module_glwe_copy_1 E module res loaded ;;
  let res := t1 in
  Some res
  | RAM_UPDATE_SW => t2 <- Module_glwe_copy_1 E module res rs2 ;;
  let res := t2 in
  Some res
  | RAM_UPDATE_SB => let cts : (list (usize * FheUint)) := Rust.map_new in
  cts <- Rust.for_range (Rust.lit 0) (Rust.lit 4) (fun i cts => let tmp : FheUint := (FheUint_alloc_from_infos E (FheUint_glwe_layout L res)) in
    t4 <- FheUint_splice_u8 E tmp module i (Rust.lit 0) loaded rs2 keys scratch ;;
    let tmp := t4 in
    let cts := (Rust.insert cts i tmp) in
    Some cts) cts ;;
  let cts_ref : (list (usize * FheUint)) := Rust.map_new in
  cts_ref <- Rust.for_each cts (fun '(key, object) cts_ref => let cts_ref := (Rust.insert cts_ref key object) in
    Some cts_ref) cts_ref ;;
  t5 <- Module_glwe_blind_selection E module res cts_ref offset (Rust.lit 0) (Rust.lit 2) scratch ;;
  let res := t5 in
  Some res
  | RAM_UPDATE_SH => let cts : (list (usize * FheUint)) := Rust.map_new in
  cts <- Rust.for_range (Rust.lit 0) (Rust.lit 2) (fun i cts => let tmp : FheUint := (FheUint_alloc_from_infos E (FheUint_glwe_layout L res)) in
    t7 <- FheUint_splice_u16 E tmp module i (Rust.lit 0) loaded rs2 keys scratch ;;
    let tmp := t7 in
    t8 <- Rust.shl p i (Rust.lit (t := Rust.I32) 1) ;;
    let cts := (Rust.insert cts t8 tmp) in
    Some cts) cts ;;
  let cts_ref : (list (usize * FheUint)) := Rust.map_new in
  cts_ref <- Rust.for_each cts (fun '(key, object) cts_ref => let cts_ref := (Rust.insert cts_ref key object) in
    Some cts_ref) cts_ref ;;
  t9 <- Module_glwe_blind_selection E module res cts_ref offset (Rust.lit 0) (Rust.lit 2) scratch ;;
  let res := t9 in
  Some res
  end.

(** fhevm/src/ram_offset.rs:62-64 *)
Definition FheUintHelper_ram_offset_bit_size (p : Rust.profile) (self : FheUintHelper_ram_offset) : option usize :=
  Some (Rust.lit 64).

(** fhevm/src/ram_offset.rs:68-83 *)
Definition FheUintHelper_ram_offset_get_bit (p : Rust.profile) (self : FheUintHelper_ram_offset) (bit : usize) : option GGSWPrepared :=
  let OFFSETS : (list usize) := [(Rust.lit 0); (Rust.lit 32)] in
  t1 <- RustIter.find (List.rev (RustIter.enumerate OFFSETS)) (fun '(_, start) => Some (Rust.ge bit start)) ;;
  t2 <- t1 ;;
  let '(index, base) := t2 in
  t3 <- Rust.index (FheUintHelper_ram_offset_data self) index ;;
  t4 <- Rust.sub p bit base ;;
  t5 <- FheUintPrepared_get_bit E t3 t4 ;;
  Some t5.

(** fhevm/src/ram_offset.rs:17-54 *)
Definition ram_offset_ram_offset (p : Rust.profile) (threads : usize) (module : Module) (res : FheUint) (rs1 : FheUintPrepared) (imm : FheUintPrepared) (keys : Keys) (scratch : Scratch) : option FheUint :=
  let inputs : (list FheUintPrepared) := [rs1; imm] in
  let helper : FheUintHelper_ram_offset := (mk_FheUintHelper_ram_offset inputs) in
  t1 <- Scratch_take_glwe_slice L scratch (Rust.cast Rust.USize (Rust.bits_of Rust.U32)) (FheUint_glwe_layout L res) ;;
  let '(out_bits, scratch_1) := t1 in
  t2 <- Module_execute_bdd_circuit_multi_thread E module threads out_bits (FheUintHelper_ram_offset_bit_size p helper, FheUintHelper_ram_offset_get_bit p helper) codegen_ram_offset scratch_1 ;;
  let out_bits := t2 in
  t3 <- FheUint_pack L res module out_bits keys scratch_1 ;;
  let res := t3 in
  Some res.

(** fhevm/src/pc_update.rs:76-78 *)
Definition FheUintHelper_pc_update_bit_size (p : Rust.profile) (self : FheUintHelper_pc_update) : option usize :=
  Some (Rust.lit 120).

(** fhevm/src/pc_update.rs:82-99 *)
Definition FheUintHelper_pc_update_get_bit (p : Rust.profile) (self : FheUintHelper_pc_update) (bit : usize) : option GGSWPrepared :=
  let OFFSETS : (list usize) := [(Rust.lit 0); (Rust.lit 4); (Rust.lit 36); (Rust.lit 68); (Rust.lit 100)] in
  t1 <- RustIter.find (List.rev (RustIter.enumerate OFFSETS)) (fun '(_, start) => Some (Rust.ge bit start)) ;;
  t2 <- t1 ;;
  let '(index, base) := t2 in
  t3 <- Rust.index (FheUintHelper_pc_update_data self) index ;;
  t4 <- Rust.sub p bit base ;;
  t5 <- FheUintPrepared_get_bit E t3 t4 ;;
  Some t5.

(** fhevm/src/pc_update.rs:20-68 *)
Definition pc_update_update_pc (p : Rust.profile) (threads : usize) (module : Module) (res : FheUint) (rs1 : FheUintPrepared) (rs2 : FheUintPrepared) (pc : FheUintPrepared) (imm : FheUintPrepared) (op_id : FheUintPrepared) (keys : Keys) (scratch : Scratch) : option FheUint :=
  let inputs : (list FheUintPrepared) := [op_id; rs1; rs2; pc; imm] in
  let helper : FheUintHelper_pc_update := (mk_FheUintHelper_pc_update inputs) in
  t1 <- Scratch_take_glwe_slice L scratch (Rust.cast Rust.USize (Rust.bits_of Rust.U32)) (FheUint_glwe_layout L res) ;;
  let '(out_bits, scratch_1) := t1 in
  t2 <- Module_execute_bdd_circuit_multi_thread E module threads out_bits (FheUintHelper_pc_update_bit_size p helper, FheUintHelper_pc_update_get_bit p helper) codegen_pc_update scratch_1 ;;
  let out_bits := t2 in
  t3 <- FheUint_pack L res module out_bits keys scratch_1 ;;
  let res := t3 in
  Some res.

(** fhevm/src/prepare.rs:41-127 *)
Definition Module_prepare_multiple_fheuint (p : Rust.profile) (fuel : nat) (self : Module) (threads : usize) (res : (list FheUintPrepared)) (bits : (list FheUint)) (bit_counts : (list usize)) (key : Keys) (scratch : Scratch) : option (list FheUintPrepared) :=
  let '(cbt, ks_glwe, ks_lwe) := (Keys_get_cbt_key E key) in
  t3 <- Rust.index res (Rust.lit 0) ;;
  t4 <- Rust.index bits (Rust.lit 0) ;;
  let scratch_thread_size := (Module_fhe_uint_prepare_tmp_bytes E self (CbtKey_block_size E cbt) (Rust.lit 1) (FheUintPrepared_ggsw_layout L t3) (FheUint_glwe_layout L t4) key) in
  t7 <- Rust.mul p threads scratch_thread_size ;;
  if (Rust.ge (Scratch_available L scratch) t7) then t8 <- RustIter.collect (combine res bit_counts) (fun '(r, count) => FheUintPrepared_get_bits E r (Rust.lit 0) count) ;;
  let combined_res := concat t8 in
  t9 <- RustIter.sum p bit_counts ;;
  let total_bit_count := t9 in
  t10 <- RustIter.div_ceil total_bit_count threads ;;
  let chunk_size : usize := t10 in
  t11 <- Scratch_split_mut L scratch threads scratch_thread_size ;;
  let '(scratches, _) := t11 in
  t12 <- Rust.index combined_res (Rust.lit 0) ;;
  let ggsw_infos : GGSWLayout := (GGSWPrepared_ggsw_layout E t12) in
  let bits_clone := bits in
  t15 <- RustIter.scan bit_counts (Rust.lit 0) (fun sum x => t14 <- Rust.add p sum x ;;
    let sum := t14 in
    Some (sum, (Some sum))) ;;
  let bit_counts_running_sums := ([(Rust.lit 0)] ++ t15) in
  '(res, combined_res) <- (t16 <- RustIter.chunks combined_res chunk_size ;;
    '(t33, _) <- RustIter.for_mut (RustIter.enumerate (combine scratches t16)) (fun '(thread_index, (scratch_thread, res_bits_chunk)) _ => t17 <- Rust.mul p thread_index chunk_size ;;
      let start : usize := t17 in
      let bits := bits_clone in
      let bit_counts_running_sums := bit_counts_running_sums in
      t18 <- Scratch_take_ggsw E scratch_thread ggsw_infos ;;
      let '(tmp_ggsw, scratch_1) := t18 in
      t19 <- Rust.index bits (Rust.lit 0) ;;
      t20 <- Scratch_take_lwe E scratch_1 (FheUint_glwe_layout L t19) ;;
      let '(tmp_lwe, scratch_2) := t20 in
      '(t32, (tmp_ggsw, tmp_lwe)) <- RustIter.for_mut (RustIter.enumerate res_bits_chunk) (fun '(local_bit, dst) '(tmp_ggsw, tmp_lwe) => let cnt := (Rust.lit 0) in
        cnt <- Rust.while fuel (fun cnt => t21 <- Rust.add p cnt (Rust.lit 1) ;;
          t22 <- Rust.index bit_counts_running_sums t21 ;;
          t23 <- Rust.add p start local_bit ;;
          Some (Rust.le t22 t23)) (fun cnt => t24 <- Rust.add p cnt (Rust.lit 1) ;;
          let cnt := t24 in
          Some cnt) cnt ;;
        t25 <- Rust.index bits cnt ;;
        t26 <- Rust.add p start local_bit ;;
        t27 <- Rust.index bit_counts_running_sums cnt ;;
        t28 <- Rust.sub p t26 t27 ;;
        t29 <- FheUint_get_bit_lwe E t25 self t28 tmp_lwe ks_glwe ks_lwe scratch_2 ;;
        let tmp_lwe := t29 in
        t30 <- CbtKey_execute_to_constant E cbt self tmp_ggsw tmp_lwe (Rust.lit 1) (Rust.lit 1) scratch_2 ;;
        let tmp_ggsw := t30 in
        t31 <- GGSWPrepared_prepare E dst self tmp_ggsw scratch_2 ;;
        let dst := t31 in
        Some ((local_bit, dst), (tmp_ggsw, tmp_lwe))) (tmp_ggsw, tmp_lwe) ;;
      let res_bits_chunk := (RustIter.write_back res_bits_chunk (map (fun x => (snd x)) t32)) in
      Some ((thread_index, (scratch_thread, res_bits_chunk)), tt)) tt ;;
    let combined_res := (RustIter.write_back combined_res (concat (map (fun x => (snd (snd x))) t33))) in
    t34 <- RustIter.collect (combine (combine res bit_counts) (RustIter.regroup t8 combined_res)) (fun '((r, count), part) => FheUintPrepared_put_bits E r (Rust.lit 0) count part) ;;
    let res := (RustIter.write_back res t34) in
    Some (res, combined_res)) ;;
  res <- Rust.for_range (Rust.lit 0) (Rust.len res) (fun res_index res => t35 <- Rust.index bit_counts res_index ;;
    res <- Rust.for_range t35 (Rust.cast Rust.USize (Rust.bits_of Rust.U32)) (fun i res => t36 <- Rust.index res res_index ;;
      t37 <- FheUintPrepared_get_bit E t36 i ;;
      t38 <- GGSWPrepared_zero E t37 self ;;
      t39 <- Rust.index res res_index ;;
      t40 <- FheUintPrepared_put_bit E t39 i t38 ;;
      t41 <- Rust.store res res_index t40 ;;
      let res := t41 in
      Some res) res ;;
    Some res) res ;;
  Some res else None.

(** fhevm/src/interpreter.rs:129-249 *)
Definition Interpreter_new_internal (p : Rust.profile) (DEBUG : bool) (params : CryptographicParameters) (rom_size : usize) (ram_size : usize) : option Interpreter :=
  let rom_infos : GLWELayout := (CryptographicParameters_rom_infos E params) in
  let ram_infos : GLWELayout := (CryptographicParameters_ram_infos E params) in
  t3 <- Memory_alloc L p rom_infos (Rust.lit 32) rom_size ;;
  let imm_rom : Memory := t3 in
  t4 <- Memory_alloc L p rom_infos (Rust.lit 32) rom_size ;;
  let rs1_rom : Memory := t4 in
  t5 <- Memory_alloc L p rom_infos (Rust.lit 32) rom_size ;;
  let rs2_rom : Memory := t5 in
  t6 <- Memory_alloc L p rom_infos (Rust.lit 32) rom_size ;;
  let rd_rom : Memory := t6 in
  t7 <- Memory_alloc L p rom_infos (Rust.lit 32) rom_size ;;
  let rdu_rom : Memory := t7 in
  t8 <- Memory_alloc L p rom_infos (Rust.lit 32) rom_size ;;
  let mu_rom : Memory := t8 in
  t9 <- Memory_alloc L p rom_infos (Rust.lit 32) rom_size ;;
  let pcu_rom : Memory := t9 in
  t10 <- Memory_alloc L p ram_infos (Rust.lit 32) (Rust.lit 32) ;;
  let registers : Memory := t10 in
  t11 <- Memory_alloc L p ram_infos (Rust.lit 32) ram_size ;;
  let ram : Memory := t11 in
  let fhe_uint_infos : GLWELayout := (CryptographicParameters_fhe_uint_infos E params) in
  let fhe_uint_prepared_infos : GGSWLayout := (CryptographicParameters_fhe_uint_prepared_infos E params) in
  let module : Module := (CryptographicParameters_module E params) in
  t15 <- (if DEBUG
    then (t16 <- InterpreterDebug_new p rom_size ram_size ;;
      Some (Some t16))
    else (Some None)) ;;
  let vm_debug : (option InterpreterDebug) := t15 in
  t17 <- Rust.sub p ram_size (Rust.lit 1) ;;
  t18 <- Rust.sub p (Rust.bits_of Rust.USize) (RustIter.leading_zeros t17) ;;
  t19 <- Rust.sub p rom_size (Rust.lit 1) ;;
  t20 <- Rust.sub p (Rust.bits_of Rust.USize) (RustIter.leading_zeros t19) ;;
  Some (mk_Interpreter (Rust.lit 0) vm_debug false (Rust.lit 1) InstructionSet_RV32I (Rust.cast Rust.USize t20) rom_size imm_rom rs1_rom rs2_rom rd_rom rdu_rom mu_rom pcu_rom (Rust.lit 5) registers (Rust.cast Rust.USize t18) ram_size ram (FheUint_alloc_from_infos E fhe_uint_infos) (FheUint_alloc_from_infos E fhe_uint_infos) (FheUintPrepared_alloc_from_infos E module fhe_uint_prepared_infos) (FheUintPrepared_alloc_from_infos E module fhe_uint_prepared_infos) (FheUint_alloc_from_infos E fhe_uint_infos) (FheUintPrepared_alloc_from_infos E module fhe_uint_prepared_infos) (FheUint_alloc_from_infos E fhe_uint_infos) (FheUintPrepared_alloc_from_infos E module fhe_uint_prepared_infos) (FheUint_alloc_from_infos E fhe_uint_infos) (FheUintPrepared_alloc_from_infos E module fhe_uint_prepared_infos) (FheUint_alloc_from_infos E fhe_uint_infos) (FheUintPrepared_alloc_from_infos E module fhe_uint_prepared_infos) (FheUint_alloc_from_infos E fhe_uint_infos) (FheUintPrepared_alloc_from_infos E module fhe_uint_prepared_infos) (FheUint_alloc_from_infos E fhe_uint_infos) (FheUintPrepared_alloc_from_infos E module fhe_uint_prepared_infos) (FheUint_alloc_from_infos E fhe_uint_infos) (FheUintPrepared_alloc_from_infos E module fhe_uint_prepared_infos) (FheUint_alloc_from_infos E fhe_uint_infos) (FheUintPrepared_alloc_from_infos E module fhe_uint_prepared_infos) (FheUint_alloc_from_infos E fhe_uint_infos) (FheUintPrepared_alloc_from_infos E module fhe_uint_prepared_infos) (FheUint_alloc_from_infos E fhe_uint_infos) (FheUintPrepared_alloc_from_infos E module fhe_uint_prepared_infos) (FheUint_alloc_from_infos E fhe_uint_infos) (FheUintPrepared_alloc_from_infos E module fhe_uint_prepared_infos)).

(** fhevm/src/interpreter.rs:111-116 *)
Definition Interpreter_new (p : Rust.profile) (params : CryptographicParameters) (rom_size : usize) (ram_size : usize) : option Interpreter :=
  t1 <- Interpreter_new_internal p false params rom_size ram_size ;;
  Some t1.

(** fhevm/src/interpreter.rs:118-127 *)
Definition Interpreter_new_with_debug (p : Rust.profile) (params : CryptographicParameters) (rom_size : usize) (ram_size : usize) : option Interpreter :=
  t1 <- Interpreter_new_internal p true params rom_size ram_size ;;
  Some t1.

(** fhevm/src/interpreter.rs:251-253 *)
Definition Interpreter_set_verbose_timings (p : Rust.profile) (self : Interpreter) (verbose_timings : bool) : option Interpreter :=
  let self := (set_Interpreter_verbose_timings self verbose_timings) in
  Some self.

(** fhevm/src/interpreter.rs:255-257 *)
Definition Interpreter_set_threads (p : Rust.profile) (self : Interpreter) (threads : usize) : option Interpreter :=
  let self := (set_Interpreter_threads self threads) in
  Some self.

(** fhevm/src/interpreter.rs:259-261 *)
Definition Interpreter_threads_fn (p : Rust.profile) (self : Interpreter) : option usize :=
  Some (Interpreter_threads self).

(** fhevm/src/interpreter.rs:263-359 *)
Definition Interpreter_instructions_encrypt_sk (p : Rust.profile) (self : Interpreter) (module : Module) (instructions : InstructionsParser) (sk_prepared : Secret) (source_xa : Source) (source_xe : Source) (scratch : Scratch) : option (Interpreter * Source * Source) :=
  self <- (match (Interpreter_vm_debug self) with
    | Some vm_debug => t1 <- InterpreterDebug_set_instructions p vm_debug instructions ;;
    let vm_debug := t1 in
    let self := (set_Interpreter_vm_debug self (Some vm_debug)) in
    Some self
    | _ => Some self
    end) ;;
  let rom_size := (Interpreter_rom_size self) in
  let data_ram_rs1 : (list u32) := (Rust.filled (Rust.lit (t := Rust.U32) 0) rom_size) in
  let data_ram_rs2 : (list u32) := (Rust.filled (Rust.lit (t := Rust.U32) 0) rom_size) in
  let data_ram_rd : (list u32) := (Rust.filled (Rust.lit (t := Rust.U32) 0) rom_size) in
  let data_ram_imm : (list u32) := (Rust.filled (Rust.lit (t := Rust.U32) 0) rom_size) in
  let data_ram_rdu : (list u32) := (Rust.filled (Rust.lit (t := Rust.U32) 0) rom_size) in
  let data_ram_mu : (list u32) := (Rust.filled (Rust.lit (t := Rust.U32) 0) rom_size) in
  let data_ram_pcu : (list u32) := (Rust.filled (Rust.lit (t := Rust.U32) 0) rom_size) in
  '(data_ram_rs1, data_ram_rs2, data_ram_rd, data_ram_imm, data_ram_rdu, data_ram_mu, data_ram_pcu) <- Rust.for_range (Rust.lit 0) (Rust.len (InstructionsParser_instructions instructions)) (fun i '(data_ram_rs1, data_ram_rs2, data_ram_rd, data_ram_imm, data_ram_rdu, data_ram_mu, data_ram_pcu) => t2 <- InstructionsParser_get_raw p instructions i ;;
    t3 <- Instruction_get_imm p t2 ;;
    let t4 : u32 := (Rust.cast Rust.U32 t3) in
    t5 <- Rust.store data_ram_imm i t4 ;;
    let data_ram_imm := t5 in
    t6 <- InstructionsParser_get_raw p instructions i ;;
    t7 <- Instruction_get_registers p t6 ;;
    let '(rs2, rs1, rd) := t7 in
    let t8 : u32 := (Rust.cast Rust.U32 rs1) in
    t9 <- Rust.store data_ram_rs1 i t8 ;;
    let data_ram_rs1 := t9 in
    let t10 : u32 := (Rust.cast Rust.U32 rs2) in
    t11 <- Rust.store data_ram_rs2 i t10 ;;
    let data_ram_rs2 := t11 in
    let t12 : u32 := (Rust.cast Rust.U32 rd) in
    t13 <- Rust.store data_ram_rd i t12 ;;
    let data_ram_rd := t13 in
    t14 <- InstructionsParser_get_raw p instructions i ;;
    t15 <- Instruction_get_opid p t14 ;;
    let '(rdu, mu, pcu) := t15 in
    let t16 : u32 := (Rust.cast Rust.U32 (RD_UPDATE_discriminant rdu)) in
    t17 <- Rust.store data_ram_rdu i t16 ;;
    let data_ram_rdu := t17 in
    let t18 : u32 := (Rust.cast Rust.U32 (RAM_UPDATE_discriminant mu)) in
    t19 <- Rust.store data_ram_mu i t18 ;;
    let data_ram_mu := t19 in
    let t20 : u32 := (Rust.cast Rust.U32 (PC_UPDATE_discriminant pcu)) in
    t21 <- Rust.store data_ram_pcu i t20 ;;
    let data_ram_pcu := t21 in
    Some (data_ram_rs1, data_ram_rs2, data_ram_rd, data_ram_imm, data_ram_rdu, data_ram_mu, data_ram_pcu)) (data_ram_rs1, data_ram_rs2, data_ram_rd, data_ram_imm, data_ram_rdu, data_ram_mu, data_ram_pcu) ;;
  '(t22, t23, t24) <- Memory_encrypt_sk L p (Interpreter_rs1_rom self) module data_ram_rs1 sk_prepared source_xa source_xe scratch ;;
  let self := (set_Interpreter_rs1_rom self t22) in
  let source_xa := t23 in
  let source_xe := t24 in
  '(t25, t26, t27) <- Memory_encrypt_sk L p (Interpreter_rs2_rom self) module data_ram_rs2 sk_prepared source_xa source_xe scratch ;;
  let self := (set_Interpreter_rs2_rom self t25) in
  let source_xa := t26 in
  let source_xe := t27 in
  '(t28, t29, t30) <- Memory_encrypt_sk L p (Interpreter_rd_rom self) module data_ram_rd sk_prepared source_xa source_xe scratch ;;
  let self := (set_Interpreter_rd_rom self t28) in
  let source_xa := t29 in
  let source_xe := t30 in
  '(t31, t32, t33) <- Memory_encrypt_sk L p (Interpreter_imm_rom self) module data_ram_imm sk_prepared source_xa source_xe scratch ;;
  let self := (set_Interpreter_imm_rom self t31) in
  let source_xa := t32 in
  let source_xe := t33 in
  '(t34, t35, t36) <- Memory_encrypt_sk L p (Interpreter_rdu_rom self) module data_ram_rdu sk_prepared source_xa source_xe scratch ;;
  let self := (set_Interpreter_rdu_rom self t34) in
  let source_xa := t35 in
  let source_xe := t36 in
  '(t37, t38, t39) <- Memory_encrypt_sk L p (Interpreter_mu_rom self) module data_ram_mu sk_prepared source_xa source_xe scratch ;;
  let self := (set_Interpreter_mu_rom self t37) in
  let source_xa := t38 in
  let source_xe := t39 in
  '(t40, t41, t42) <- Memory_encrypt_sk L p (Interpreter_pcu_rom self) module data_ram_pcu sk_prepared source_xa source_xe scratch ;;
  let self := (set_Interpreter_pcu_rom self t40) in
  let source_xa := t41 in
  let source_xe := t42 in
  Some (self, source_xa, source_xe).

(** fhevm/src/interpreter.rs:361-376 *)
Definition Interpreter_init_registers (p : Rust.profile) (self : Interpreter) (module : Module) (data : (list u32)) (sk_prepared : Secret) (source_xa : Source) (source_xe : Source) (scratch : Scratch) : option (Interpreter * Source * Source) :=
  '(t1, t2, t3) <- Memory_encrypt_sk L p (Interpreter_registers self) module data sk_prepared source_xa source_xe scratch ;;
  let self := (set_Interpreter_registers self t1) in
  let source_xa := t2 in
  let source_xe := t3 in
  Some (self, source_xa, source_xe).

(** fhevm/src/interpreter.rs:378-399 *)
Definition Interpreter_ram_encrypt_sk (p : Rust.profile) (self : Interpreter) (module : Module) (data : (list u32)) (sk_prepared : Secret) (source_xa : Source) (source_xe : Source) (scratch : Scratch) : option (Interpreter * Source * Source) :=
  t1 <- Memory_size_fn L p (Interpreter_ram self) ;;
  if (Rust.le (Rust.len data) t1) then self <- (match (Interpreter_vm_debug self) with
    | Some vm_debug => t2 <- InterpreterDebug_set_ram p vm_debug data ;;
    let vm_debug := t2 in
    let self := (set_Interpreter_vm_debug self (Some vm_debug)) in
    Some self
    | _ => Some self
    end) ;;
  '(t3, t4, t5) <- Memory_encrypt_sk L p (Interpreter_ram self) module data sk_prepared source_xa source_xe scratch ;;
  let self := (set_Interpreter_ram self t3) in
  let source_xa := t4 in
  let source_xe := t5 in
  Some (self, source_xa, source_xe) else None.

(** fhevm/src/interpreter.rs:401-416 *)
Definition Interpreter_ram_decrypt (p : Rust.profile) (self : Interpreter) (module : Module) (data_decrypted : (list u32)) (sk_prepared : Secret) (scratch : Scratch) : option (Interpreter * (list u32)) :=
  t1 <- Memory_size_fn L p (Interpreter_ram self) ;;
  if (Rust.eq (Rust.len data_decrypted) t1) then t2 <- Memory_decrypt L p (Interpreter_ram self) module data_decrypted sk_prepared scratch ;;
  let data_decrypted := t2 in
  Some (self, data_decrypted) else None.

(** fhevm/src/interpreter.rs:629-889 *)
Definition Interpreter_read_and_prepare_instruction_components (p : Rust.profile) (fuel : nat) (self : Interpreter) (threads : usize) (module : Module) (keys : Keys) (sk : (option Secret)) (scratch : Scratch) : option Interpreter :=
  self <- (self <- ('(t1, t2) <- Memory_read_stateless L p (Interpreter_imm_rom self) threads module (Interpreter_imm_val_fhe_uint self) (Interpreter_pc_fhe_uint_prepared self) (Rust.lit 2) keys scratch ;;
      let self := (set_Interpreter_imm_rom self t1) in
      let self := (set_Interpreter_imm_val_fhe_uint self t2) in
      '(t3, t4) <- Memory_read_stateless L p (Interpreter_rdu_rom self) threads module (Interpreter_rdu_val_fhe_uint self) (Interpreter_pc_fhe_uint_prepared self) (Rust.lit 2) keys scratch ;;
      let self := (set_Interpreter_rdu_rom self t3) in
      let self := (set_Interpreter_rdu_val_fhe_uint self t4) in
      '(t5, t6) <- Memory_read_stateless L p (Interpreter_mu_rom self) threads module (Interpreter_mu_val_fhe_uint self) (Interpreter_pc_fhe_uint_prepared self) (Rust.lit 2) keys scratch ;;
      let self := (set_Interpreter_mu_rom self t5) in
      let self := (set_Interpreter_mu_val_fhe_uint self t6) in
      '(t7, t8) <- Memory_read_stateless L p (Interpreter_pcu_rom self) threads module (Interpreter_pcu_val_fhe_uint self) (Interpreter_pc_fhe_uint_prepared self) (Rust.lit 2) keys scratch ;;
      let self := (set_Interpreter_pcu_rom self t7) in
      let self := (set_Interpreter_pcu_val_fhe_uint self t8) in
      '(t9, t10) <- Memory_read_stateless L p (Interpreter_rs1_rom self) threads module (Interpreter_rs1_addr_fhe_uint self) (Interpreter_pc_fhe_uint_prepared self) (Rust.lit 2) keys scratch ;;
      let self := (set_Interpreter_rs1_rom self t9) in
      let self := (set_Interpreter_rs1_addr_fhe_uint self t10) in
      '(t11, t12) <- Memory_read_stateless L p (Interpreter_rs2_rom self) threads module (Interpreter_rs2_addr_fhe_uint self) (Interpreter_pc_fhe_uint_prepared self) (Rust.lit 2) keys scratch ;;
      let self := (set_Interpreter_rs2_rom self t11) in
      let self := (set_Interpreter_rs2_addr_fhe_uint self t12) in
      '(t13, t14) <- Memory_read_stateless L p (Interpreter_rd_rom self) threads module (Interpreter_rd_addr_fhe_uint self) (Interpreter_pc_fhe_uint_prepared self) (Rust.lit 2) keys scratch ;;
      let self := (set_Interpreter_rd_rom self t13) in
      let self := (set_Interpreter_rd_addr_fhe_uint self t14) in
      Some self) ;;
    t15 <- (let t16 := (Interpreter_instruction_set self) in
      match t16 with
      | InstructionSet_RV32M => None
      | InstructionSet_RV32I => t17 <- Rust.sub p (Rust.len instructions_RD_UPDATE_RV32I_OP_LIST) (Rust.lit 1) ;;
      t18 <- Rust.sub p (Rust.bits_of Rust.USize) (RustIter.leading_zeros t17) ;;
      Some (Rust.cast Rust.USize t18)
      end) ;;
    let rd_ops_bit_size : usize := t15 in
    t19 <- Rust.sub p (Rust.len instructions_RAM_UPDATE_OP_LIST) (Rust.lit 1) ;;
    t20 <- Rust.sub p (Rust.bits_of Rust.USize) (RustIter.leading_zeros t19) ;;
    let ram_ops_bit_size : usize := (Rust.cast Rust.USize t20) in
    t21 <- Module_prepare_multiple_fheuint p fuel module threads [(Interpreter_rdu_val_fhe_uint_prepared self); (Interpreter_mu_val_fhe_uint_prepared self); (Interpreter_pcu_val_fhe_uint_prepared self); (Interpreter_imm_val_fhe_uint_prepared self); (Interpreter_rs1_addr_fhe_uint_prepared self); (Interpreter_rs2_addr_fhe_uint_prepared self); (Interpreter_rd_addr_fhe_uint_prepared self)] [(Interpreter_rdu_val_fhe_uint self); (Interpreter_mu_val_fhe_uint self); (Interpreter_pcu_val_fhe_uint self); (Interpreter_imm_val_fhe_uint self); (Interpreter_rs1_addr_fhe_uint self); (Interpreter_rs2_addr_fhe_uint self); (Interpreter_rd_addr_fhe_uint self)] [rd_ops_bit_size; ram_ops_bit_size; (Rust.lit 4); (Rust.lit 32); (Interpreter_reg_bit_size self); (Interpreter_reg_bit_size self); (Interpreter_reg_bit_size self)] keys scratch ;;
    t22 <- Rust.index t21 (Rust.lit 0) ;;
    let self := (set_Interpreter_rdu_val_fhe_uint_prepared self t22) in
    t23 <- Rust.index t21 (Rust.lit 1) ;;
    let self := (set_Interpreter_mu_val_fhe_uint_prepared self t23) in
    t24 <- Rust.index t21 (Rust.lit 2) ;;
    let self := (set_Interpreter_pcu_val_fhe_uint_prepared self t24) in
    t25 <- Rust.index t21 (Rust.lit 3) ;;
    let self := (set_Interpreter_imm_val_fhe_uint_prepared self t25) in
    t26 <- Rust.index t21 (Rust.lit 4) ;;
    let self := (set_Interpreter_rs1_addr_fhe_uint_prepared self t26) in
    t27 <- Rust.index t21 (Rust.lit 5) ;;
    let self := (set_Interpreter_rs2_addr_fhe_uint_prepared self t27) in
    t28 <- Rust.index t21 (Rust.lit 6) ;;
    let self := (set_Interpreter_rd_addr_fhe_uint_prepared self t28) in
    Some self) ;;
  match sk, (Interpreter_vm_debug self) with
  | Some sk, Some vm_debug => t29 <- InterpreterDebug_read_instructions p vm_debug  ;;
  let vm_debug := t29 in
  t30 <- FheUintPrepared_decrypt E (Interpreter_pc_fhe_uint_prepared self) module sk keys scratch ;;
  let pc_have : u32 := t30 in
  t31 <- FheUint_decrypt E (Interpreter_imm_val_fhe_uint self) module sk scratch ;;
  let imm_have : u32 := t31 in
  t32 <- FheUint_decrypt E (Interpreter_rs1_addr_fhe_uint self) module sk scratch ;;
  let rs1_have : u32 := t32 in
  t33 <- FheUint_decrypt E (Interpreter_rs2_addr_fhe_uint self) module sk scratch ;;
  let rs2_have : u32 := t33 in
  t34 <- FheUint_decrypt E (Interpreter_rd_addr_fhe_uint self) module sk scratch ;;
  let rd_have : u32 := t34 in
  t35 <- FheUint_decrypt E (Interpreter_rdu_val_fhe_uint self) module sk scratch ;;
  let rdu_have : u32 := t35 in
  t36 <- FheUint_decrypt E (Interpreter_mu_val_fhe_uint self) module sk scratch ;;
  let mu_have : u32 := t36 in
  t37 <- FheUint_decrypt E (Interpreter_pcu_val_fhe_uint self) module sk scratch ;;
  let pcu_have : u32 := t37 in
  let pc_want : u32 := (InterpreterDebug_pc vm_debug) in
  let imm_want : u32 := (InterpreterDebug_imm vm_debug) in
  let rs1_want : u32 := (InterpreterDebug_rs1_addr vm_debug) in
  let rs2_want : u32 := (InterpreterDebug_rs2_addr vm_debug) in
  let rd_want : u32 := (InterpreterDebug_rd_addr vm_debug) in
  let rdu_want : u32 := (InterpreterDebug_rdu vm_debug) in
  let mu_want : u32 := (InterpreterDebug_mu vm_debug) in
  let pcu_want : u32 := (InterpreterDebug_pcu vm_debug) in
  if (Rust.eq pc_have pc_want) then if (Rust.eq imm_have imm_want) then if (Rust.eq rs1_have rs1_want) then if (Rust.eq rs2_have rs2_want) then if (Rust.eq rd_have rd_want) then if (Rust.eq rdu_have rdu_want) then if (Rust.eq mu_have mu_want) then if (Rust.eq pcu_have pcu_want) then let self := (set_Interpreter_vm_debug self (Some vm_debug)) in
  Some self else None else None else None else None else None else None else None else None
  | _, _ => Some self
  end.

(** fhevm/src/interpreter.rs:891-984 *)
Definition Interpreter_read_and_prepare_registers (p : Rust.profile) (fuel : nat) (self : Interpreter) (threads : usize) (module : Module) (keys : Keys) (sk : (option Secret)) (scratch : Scratch) : option Interpreter :=
  self <- (self <- ('(t1, t2) <- Memory_read_stateless L p (Interpreter_registers self) threads module (Interpreter_rs1_val_fhe_uint self) (Interpreter_rs1_addr_fhe_uint_prepared self) (Rust.lit 0) keys scratch ;;
      let self := (set_Interpreter_registers self t1) in
      let self := (set_Interpreter_rs1_val_fhe_uint self t2) in
      '(t3, t4) <- Memory_read_stateless L p (Interpreter_registers self) threads module (Interpreter_rs2_val_fhe_uint self) (Interpreter_rs2_addr_fhe_uint_prepared self) (Rust.lit 0) keys scratch ;;
      let self := (set_Interpreter_registers self t3) in
      let self := (set_Interpreter_rs2_val_fhe_uint self t4) in
      Some self) ;;
    t5 <- Module_prepare_multiple_fheuint p fuel module threads [(Interpreter_rs1_val_fhe_uint_prepared self); (Interpreter_rs2_val_fhe_uint_prepared self)] [(Interpreter_rs1_val_fhe_uint self); (Interpreter_rs2_val_fhe_uint self)] [(Rust.lit 32); (Rust.lit 32)] keys scratch ;;
    t6 <- Rust.index t5 (Rust.lit 0) ;;
    let self := (set_Interpreter_rs1_val_fhe_uint_prepared self t6) in
    t7 <- Rust.index t5 (Rust.lit 1) ;;
    let self := (set_Interpreter_rs2_val_fhe_uint_prepared self t7) in
    Some self) ;;
  match sk, (Interpreter_vm_debug self) with
  | Some sk, Some vm_debug => t8 <- InterpreterDebug_read_registers p vm_debug  ;;
  let vm_debug := t8 in
  t9 <- FheUint_decrypt E (Interpreter_rs1_val_fhe_uint self) module sk scratch ;;
  let rs1_have : u32 := t9 in
  t10 <- FheUint_decrypt E (Interpreter_rs2_val_fhe_uint self) module sk scratch ;;
  let rs2_have : u32 := t10 in
  let rs1_want : u32 := (InterpreterDebug_rs1_val vm_debug) in
  let rs2_want : u32 := (InterpreterDebug_rs2_val vm_debug) in
  if (Rust.eq rs1_have rs1_want) then if (Rust.eq rs2_have rs2_want) then let self := (set_Interpreter_vm_debug self (Some vm_debug)) in
  Some self else None else None
  | _, _ => Some self
  end.

(** fhevm/src/interpreter.rs:986-1090 *)
Definition Interpreter_read_ram (p : Rust.profile) (self : Interpreter) (threads : usize) (module : Module) (keys : Keys) (sk : (option Secret)) (scratch : Scratch) : option Interpreter :=
  self <- (self <- (t1 <- ram_offset_ram_offset p threads module (Interpreter_ram_addr_fhe_uint self) (Interpreter_imm_val_fhe_uint_prepared self) (Interpreter_rs1_val_fhe_uint_prepared self) keys scratch ;;
      let self := (set_Interpreter_ram_addr_fhe_uint self t1) in
      Some self) ;;
    self <- (t2 <- Rust.add p (Interpreter_ram_bit_size self) (Rust.lit 2) ;;
      t3 <- FheUintPrepared_prepare_custom_multi_thread E (Interpreter_ram_addr_fhe_uint_prepared self) threads module (Interpreter_ram_addr_fhe_uint self) (Rust.lit 0) t2 keys scratch ;;
      let self := (set_Interpreter_ram_addr_fhe_uint_prepared self t3) in
      Some self) ;;
    '(t4, t5) <- Memory_read_statefull L p (Interpreter_ram self) threads module (Interpreter_ram_val_fhe_uint self) (Interpreter_ram_addr_fhe_uint_prepared self) (Rust.lit 2) keys scratch ;;
    let self := (set_Interpreter_ram self t4) in
    let self := (set_Interpreter_ram_val_fhe_uint self t5) in
    Some self) ;;
  match sk, (Interpreter_vm_debug self) with
  | Some sk, Some vm_debug => t6 <- InterpreterDebug_read_ram p vm_debug  ;;
  let vm_debug := t6 in
  t7 <- FheUint_decrypt E (Interpreter_ram_addr_fhe_uint self) module sk scratch ;;
  let ram_addr_have : u32 := t7 in
  t8 <- FheUint_decrypt E (Interpreter_ram_val_fhe_uint self) module sk scratch ;;
  let ram_val_have : u32 := t8 in
  let ram_addr_want : u32 := (InterpreterDebug_ram_addr vm_debug) in
  let ram_val_want : u32 := (InterpreterDebug_ram_val vm_debug) in
  if (Rust.eq ram_addr_have ram_addr_want) then if (Rust.eq ram_val_have ram_val_want) then let self := (set_Interpreter_vm_debug self (Some vm_debug)) in
  Some self else None else None
  | _, _ => Some self
  end.

(** fhevm/src/interpreter.rs:1092-1241 *)
Definition Interpreter_update_registers (p : Rust.profile) (self : Interpreter) (threads : usize) (module : Module) (ops : (list RD_UPDATE)) (keys : Keys) (sk : (option Secret)) (scratch : Scratch) : option Interpreter :=
  self <- (let rs1 : FheUintPrepared := (Interpreter_rs1_val_fhe_uint_prepared self) in
    let rs2 : FheUintPrepared := (Interpreter_rs2_val_fhe_uint_prepared self) in
    let imm : FheUintPrepared := (Interpreter_imm_val_fhe_uint_prepared self) in
    let pc : FheUintPrepared := (Interpreter_pc_fhe_uint_prepared self) in
    let ram_val : FheUint := (Interpreter_ram_val_fhe_uint self) in
    let rd_map : (list (u32 * FheUint)) := Rust.map_new in
    rd_map <- (rd_map <- Rust.for_each ops (fun op rd_map => let tmp : FheUint := (FheUint_alloc_from_infos E (FheUint_glwe_layout L (Interpreter_imm_val_fhe_uint self))) in
        t2 <- RD_UPDATE_eval_enc p op threads module tmp rs1 rs2 imm pc ram_val keys scratch ;;
        let tmp := t2 in
        t3 <- RD_UPDATE_id p op ;;
        let rd_map := (Rust.insert rd_map t3 tmp) in
        Some rd_map) rd_map ;;
      Some rd_map) ;;
    self <- (let ops_ref : (list (usize * FheUint)) := Rust.map_new in
      ops_ref <- Rust.for_each rd_map (fun '(key, object) ops_ref => let ops_ref := (Rust.insert ops_ref (Rust.cast Rust.USize key) object) in
        Some ops_ref) ops_ref ;;
      t4 <- Rust.sub p (Rust.len ops) (Rust.lit 1) ;;
      t5 <- Rust.sub p (Rust.bits_of Rust.USize) (RustIter.leading_zeros t4) ;;
      let ops_bit_size : usize := (Rust.cast Rust.USize t5) in
      t6 <- Module_glwe_blind_selection E module (Interpreter_rd_val_fhe_uint self) ops_ref (Interpreter_rdu_val_fhe_uint_prepared self) (Rust.lit 0) ops_bit_size scratch ;;
      let self := (set_Interpreter_rd_val_fhe_uint self t6) in
      Some self) ;;
    self <- (t7 <- FheUintPrepared_prepare_custom_multi_thread E (Interpreter_rd_val_fhe_uint_prepared self) threads module (Interpreter_rd_val_fhe_uint self) (Rust.lit 0) (Rust.lit 32) keys scratch ;;
      let self := (set_Interpreter_rd_val_fhe_uint_prepared self t7) in
      t8 <- FheUint_identity_multi_thread E (Interpreter_rd_val_fhe_uint self) threads module (Interpreter_rd_val_fhe_uint_prepared self) keys scratch ;;
      let self := (set_Interpreter_rd_val_fhe_uint self t8) in
      Some self) ;;
    t9 <- Memory_write L p (Interpreter_registers self) threads module (Interpreter_rd_val_fhe_uint self) (Interpreter_rd_addr_fhe_uint_prepared self) (Rust.lit 0) keys scratch ;;
    let self := (set_Interpreter_registers self t9) in
    t10 <- Memory_zero L p (Interpreter_registers self) threads module (Rust.lit 0) keys scratch ;;
    let self := (set_Interpreter_registers self t10) in
    Some self) ;;
  match sk, (Interpreter_vm_debug self) with
  | Some sk, Some vm_debug => t11 <- InterpreterDebug_update_registers p vm_debug ops ;;
  let vm_debug := t11 in
  t12 <- FheUint_decrypt E (Interpreter_rd_val_fhe_uint self) module sk scratch ;;
  let rd_have : u32 := t12 in
  let rd_want : u32 := (InterpreterDebug_rd_val vm_debug) in
  if (Rust.eq rd_have rd_want) then let registers_have : (list u32) := (Rust.filled (Rust.lit (t := Rust.U32) 0) (Rust.lit 32)) in
  t13 <- Memory_decrypt L p (Interpreter_registers self) module registers_have sk scratch ;;
  let registers_have := t13 in
  let registers_want : (list u32) := (InterpreterDebug_registers vm_debug) in
  if (RustIter.eq_list registers_have registers_want) then let self := (set_Interpreter_vm_debug self (Some vm_debug)) in
  Some self else None else None
  | _, _ => Some self
  end.

(** fhevm/src/interpreter.rs:1243-1376 *)
Definition Interpreter_update_ram (p : Rust.profile) (self : Interpreter) (threads : usize) (module : Module) (keys : Keys) (sk : (option Secret)) (scratch : Scratch) : option Interpreter :=
  self <- (let res_tmp : (list (u32 * FheUint)) := Rust.map_new in
    res_tmp <- (res_tmp <- Rust.for_each instructions_RAM_UPDATE_OP_LIST (fun op res_tmp => let tmp : FheUint := (FheUint_alloc_from_infos E (FheUint_glwe_layout L (Interpreter_imm_val_fhe_uint self))) in
        t2 <- RAM_UPDATE_eval_enc p op threads module tmp (Interpreter_rs2_val_fhe_uint self) (Interpreter_ram_val_fhe_uint self) (Interpreter_ram_addr_fhe_uint_prepared self) keys scratch ;;
        let tmp := t2 in
        t3 <- RAM_UPDATE_id p op ;;
        let res_tmp := (Rust.insert res_tmp t3 tmp) in
        Some res_tmp) res_tmp ;;
      Some res_tmp) ;;
    self <- (let res_tmp_ref : (list (usize * FheUint)) := Rust.map_new in
      res_tmp_ref <- Rust.for_each res_tmp (fun '(key, object) res_tmp_ref => let res_tmp_ref := (Rust.insert res_tmp_ref (Rust.cast Rust.USize key) object) in
        Some res_tmp_ref) res_tmp_ref ;;
      t4 <- Rust.sub p (Rust.len instructions_RAM_UPDATE_OP_LIST) (Rust.lit 1) ;;
      t5 <- Rust.sub p (Rust.bits_of Rust.USize) (RustIter.leading_zeros t4) ;;
      let ops_bit_size : usize := (Rust.cast Rust.USize t5) in
      t6 <- Module_glwe_blind_selection E module (Interpreter_ram_val_fhe_uint self) res_tmp_ref (Interpreter_mu_val_fhe_uint_prepared self) (Rust.lit 0) ops_bit_size scratch ;;
      let self := (set_Interpreter_ram_val_fhe_uint self t6) in
      Some self) ;;
    self <- (t7 <- FheUintPrepared_prepare_custom_multi_thread E (Interpreter_ram_val_fhe_uint_prepared self) threads module (Interpreter_ram_val_fhe_uint self) (Rust.lit 0) (Rust.lit 32) keys scratch ;;
      let self := (set_Interpreter_ram_val_fhe_uint_prepared self t7) in
      t8 <- FheUint_identity_multi_thread E (Interpreter_ram_val_fhe_uint self) threads module (Interpreter_ram_val_fhe_uint_prepared self) keys scratch ;;
      let self := (set_Interpreter_ram_val_fhe_uint self t8) in
      Some self) ;;
    t9 <- Memory_read_statefull_rev L p (Interpreter_ram self) threads module (Interpreter_ram_val_fhe_uint self) (Interpreter_ram_addr_fhe_uint_prepared self) (Rust.lit 2) keys scratch ;;
    let self := (set_Interpreter_ram self t9) in
    Some self) ;;
  match sk, (Interpreter_vm_debug self) with
  | Some sk, Some vm_debug => t10 <- InterpreterDebug_update_ram p vm_debug  ;;
  let vm_debug := t10 in
  t11 <- FheUint_decrypt E (Interpreter_ram_val_fhe_uint self) module sk scratch ;;
  let ram_have : u32 := t11 in
  let ram_want : u32 := (InterpreterDebug_ram_val vm_debug) in
  if (Rust.eq ram_have ram_want) then let ram_have : (list u32) := (Rust.filled (Rust.lit (t := Rust.U32) 0) (Interpreter_ram_size self)) in
  t12 <- Memory_decrypt L p (Interpreter_ram self) module ram_have sk scratch ;;
  let ram_have := t12 in
  let ram_want : (list u32) := (InterpreterDebug_ram vm_debug) in
  if (RustIter.eq_list ram_have ram_want) then let self := (set_Interpreter_vm_debug self (Some vm_debug)) in
  Some self else None else None
  | _, _ => Some self
  end.

(** fhevm/src/interpreter.rs:1378-1430 *)
Definition Interpreter_update_pc (p : Rust.profile) (self : Interpreter) (threads : usize) (module : Module) (keys : Keys) (sk : (option Secret)) (scratch : Scratch) : option Interpreter :=
  self <- (t1 <- pc_update_update_pc p threads module (Interpreter_pc_fhe_uint self) (Interpreter_rs1_val_fhe_uint_prepared self) (Interpreter_rs2_val_fhe_uint_prepared self) (Interpreter_pc_fhe_uint_prepared self) (Interpreter_imm_val_fhe_uint_prepared self) (Interpreter_pcu_val_fhe_uint_prepared self) keys scratch ;;
    let self := (set_Interpreter_pc_fhe_uint self t1) in
    Some self) ;;
  match sk, (Interpreter_vm_debug self) with
  | Some sk, Some vm_debug => t2 <- InterpreterDebug_update_pc p vm_debug  ;;
  let vm_debug := t2 in
  t3 <- FheUint_decrypt E (Interpreter_pc_fhe_uint self) module sk scratch ;;
  let pc_have : u32 := t3 in
  let pc_want : u32 := (InterpreterDebug_pc vm_debug) in
  if (Rust.eq pc_have pc_want) then let self := (set_Interpreter_vm_debug self (Some vm_debug)) in
  Some self else None
  | _, _ => Some self
  end.

(** fhevm/src/interpreter.rs:487-627 *)
Definition Interpreter_cycle_internal (p : Rust.profile) (fuel : nat) (self : Interpreter) (module : Module) (keys : Keys) (sk : (option Secret)) (scratch : Scratch) : option Interpreter :=
  let threads := (Interpreter_threads self) in
  _ <- (if (Interpreter_verbose_timings self)
    then (Some tt)
    else (Some tt)) ;;
  self <- (if (Rust.ne (Interpreter_cycle self) (Rust.lit 0))
    then (t1 <- Rust.add p (Interpreter_rom_bits_size self) (Rust.lit 2) ;;
      t2 <- FheUintPrepared_prepare_custom_multi_thread E (Interpreter_pc_fhe_uint_prepared self) threads module (Interpreter_pc_fhe_uint self) (Rust.lit 0) t1 keys scratch ;;
      let self := (set_Interpreter_pc_fhe_uint_prepared self t2) in
      if (Interpreter_verbose_timings self)
      then (Some self)
      else (Some self))
    else (Some self)) ;;
  t3 <- Interpreter_read_and_prepare_instruction_components p fuel self threads module keys sk scratch ;;
  let self := t3 in
  t4 <- Interpreter_read_and_prepare_registers p fuel self threads module keys sk scratch ;;
  let self := t4 in
  t5 <- Interpreter_read_ram p self threads module keys sk scratch ;;
  let self := t5 in
  self <- (let t6 := (Interpreter_instruction_set self) in
    match t6 with
    | InstructionSet_RV32M => None
    | InstructionSet_RV32I => t7 <- Interpreter_update_registers p self threads module instructions_RD_UPDATE_RV32I_OP_LIST keys sk scratch ;;
    let self := t7 in
    Some self
    end) ;;
  t8 <- Interpreter_update_ram p self threads module keys sk scratch ;;
  let self := t8 in
  t9 <- Interpreter_update_pc p self threads module keys sk scratch ;;
  let self := t9 in
  t10 <- Rust.add p (Interpreter_cycle self) (Rust.lit 1) ;;
  let self := (set_Interpreter_cycle self t10) in
  Some self.

(** fhevm/src/interpreter.rs:418-450 *)
Definition Interpreter_cycle_fn (p : Rust.profile) (fuel : nat) (self : Interpreter) (module : Module) (keys : Keys) (scratch : Scratch) : option Interpreter :=
  t1 <- Interpreter_cycle_internal p fuel self module keys None scratch ;;
  let self := t1 in
  Some self.

(** fhevm/src/interpreter.rs:452-485 *)
Definition Interpreter_cycle_debug (p : Rust.profile) (fuel : nat) (self : Interpreter) (module : Module) (keys : Keys) (sk : Secret) (scratch : Scratch) : option Interpreter :=
  t1 <- Interpreter_cycle_internal p fuel self module keys (Some sk) scratch ;;
  let self := t1 in
  Some self.

End Text.

Arguments mk_FheUintHelper_ram_offset {L}.
Arguments FheUintHelper_ram_offset_data {L}. Arguments set_FheUintHelper_ram_offset_data {L}.
Arguments mk_FheUintHelper_pc_update {L}.
Arguments FheUintHelper_pc_update_data {L}. Arguments set_FheUintHelper_pc_update_data {L}.
Arguments mk_Interpreter {L}.
Arguments Interpreter_cycle {L}. Arguments set_Interpreter_cycle {L}.
Arguments Interpreter_vm_debug {L}. Arguments set_Interpreter_vm_debug {L}.
Arguments Interpreter_verbose_timings {L}. Arguments set_Interpreter_verbose_timings {L}.
Arguments Interpreter_threads {L}. Arguments set_Interpreter_threads {L}.
Arguments Interpreter_instruction_set {L}. Arguments set_Interpreter_instruction_set {L}.
Arguments Interpreter_rom_bits_size {L}. Arguments set_Interpreter_rom_bits_size {L}.
Arguments Interpreter_rom_size {L}. Arguments set_Interpreter_rom_size {L}.
Arguments Interpreter_imm_rom {L}. Arguments set_Interpreter_imm_rom {L}.
Arguments Interpreter_rs1_rom {L}. Arguments set_Interpreter_rs1_rom {L}.
Arguments Interpreter_rs2_rom {L}. Arguments set_Interpreter_rs2_rom {L}.
Arguments Interpreter_rd_rom {L}. Arguments set_Interpreter_rd_rom {L}.
Arguments Interpreter_rdu_rom {L}. Arguments set_Interpreter_rdu_rom {L}.
Arguments Interpreter_mu_rom {L}. Arguments set_Interpreter_mu_rom {L}.
Arguments Interpreter_pcu_rom {L}. Arguments set_Interpreter_pcu_rom {L}.
Arguments Interpreter_reg_bit_size {L}. Arguments set_Interpreter_reg_bit_size {L}.
Arguments Interpreter_registers {L}. Arguments set_Interpreter_registers {L}.
Arguments Interpreter_ram_bit_size {L}. Arguments set_Interpreter_ram_bit_size {L}.
Arguments Interpreter_ram_size {L}. Arguments set_Interpreter_ram_size {L}.
Arguments Interpreter_ram {L}. Arguments set_Interpreter_ram {L}.
Arguments Interpreter_ram_addr_fhe_uint {L}. Arguments set_Interpreter_ram_addr_fhe_uint {L}.
Arguments Interpreter_ram_val_fhe_uint {L}. Arguments set_Interpreter_ram_val_fhe_uint {L}.
Arguments Interpreter_ram_addr_fhe_uint_prepared {L}. Arguments set_Interpreter_ram_addr_fhe_uint_prepared {L}.
Arguments Interpreter_ram_val_fhe_uint_prepared {L}. Arguments set_Interpreter_ram_val_fhe_uint_prepared {L}.
Arguments Interpreter_pc_fhe_uint {L}. Arguments set_Interpreter_pc_fhe_uint {L}.
Arguments Interpreter_pc_fhe_uint_prepared {L}. Arguments set_Interpreter_pc_fhe_uint_prepared {L}.
Arguments Interpreter_rs1_addr_fhe_uint {L}. Arguments set_Interpreter_rs1_addr_fhe_uint {L}.
Arguments Interpreter_rs1_addr_fhe_uint_prepared {L}. Arguments set_Interpreter_rs1_addr_fhe_uint_prepared {L}.
Arguments Interpreter_rs1_val_fhe_uint {L}. Arguments set_Interpreter_rs1_val_fhe_uint {L}.
Arguments Interpreter_rs1_val_fhe_uint_prepared {L}. Arguments set_Interpreter_rs1_val_fhe_uint_prepared {L}.
Arguments Interpreter_rs2_addr_fhe_uint {L}. Arguments set_Interpreter_rs2_addr_fhe_uint {L}.
Arguments Interpreter_rs2_addr_fhe_uint_prepared {L}. Arguments set_Interpreter_rs2_addr_fhe_uint_prepared {L}.
Arguments Interpreter_rs2_val_fhe_uint {L}. Arguments set_Interpreter_rs2_val_fhe_uint {L}.
Arguments Interpreter_rs2_val_fhe_uint_prepared {L}. Arguments set_Interpreter_rs2_val_fhe_uint_prepared {L}.
Arguments Interpreter_imm_val_fhe_uint {L}. Arguments set_Interpreter_imm_val_fhe_uint {L}.
Arguments Interpreter_imm_val_fhe_uint_prepared {L}. Arguments set_Interpreter_imm_val_fhe_uint_prepared {L}.
Arguments Interpreter_rd_addr_fhe_uint {L}. Arguments set_Interpreter_rd_addr_fhe_uint {L}.
Arguments Interpreter_rd_addr_fhe_uint_prepared {L}. Arguments set_Interpreter_rd_addr_fhe_uint_prepared {L}.
Arguments Interpreter_rd_val_fhe_uint {L}. Arguments set_Interpreter_rd_val_fhe_uint {L}.
Arguments Interpreter_rd_val_fhe_uint_prepared {L}. Arguments set_Interpreter_rd_val_fhe_uint_prepared {L}.
Arguments Interpreter_rdu_val_fhe_uint {L}. Arguments set_Interpreter_rdu_val_fhe_uint {L}.
Arguments Interpreter_rdu_val_fhe_uint_prepared {L}. Arguments set_Interpreter_rdu_val_fhe_uint_prepared {L}.
Arguments Interpreter_mu_val_fhe_uint {L}. Arguments set_Interpreter_mu_val_fhe_uint {L}.
Arguments Interpreter_mu_val_fhe_uint_prepared {L}. Arguments set_Interpreter_mu_val_fhe_uint_prepared {L}.
Arguments Interpreter_pcu_val_fhe_uint {L}. Arguments set_Interpreter_pcu_val_fhe_uint {L}.
Arguments Interpreter_pcu_val_fhe_uint_prepared {L}. Arguments set_Interpreter_pcu_val_fhe_uint_prepared {L}.
