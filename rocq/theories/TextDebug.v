(** * The plaintext shadow machine, translated

    Generated by tools/gen_text.py from fhevm/src/debug.rs.
    Do not edit.  The operators are those of Rust.v. *)
Require Import ZArith List Bool.
From Verif Require Import Rust.
From Verif Require Import TextInstr.
Import ListNotations.
Open Scope Z_scope.
Local Notation u8 := (Rust.int Rust.U8).
Local Notation u16 := (Rust.int Rust.U16).
Local Notation u32 := (Rust.int Rust.U32).
Local Notation u64 := (Rust.int Rust.U64).
Local Notation usize := (Rust.int Rust.USize).
Local Notation i32 := (Rust.int Rust.I32).
Local Notation i64 := (Rust.int Rust.I64).


(** fhevm/src/debug.rs:5-31 *)
Record InterpreterDebug := mk_InterpreterDebug {
  InterpreterDebug_ram_size : u32;
  InterpreterDebug_rom_size : u32;
  InterpreterDebug_pc : u32;
  InterpreterDebug_imm_rom : (list u32);
  InterpreterDebug_rs1_rom : (list u32);
  InterpreterDebug_rs2_rom : (list u32);
  InterpreterDebug_rd_rom : (list u32);
  InterpreterDebug_rdu_rom : (list u32);
  InterpreterDebug_mu_rom : (list u32);
  InterpreterDebug_pcu_rom : (list u32);
  InterpreterDebug_registers : (list u32);
  InterpreterDebug_ram : (list u32);
  InterpreterDebug_ram_addr : u32;
  InterpreterDebug_imm : u32;
  InterpreterDebug_rs1_val : u32;
  InterpreterDebug_rs2_val : u32;
  InterpreterDebug_ram_val : u32;
  InterpreterDebug_rd_val : u32;
  InterpreterDebug_rs1_addr : u32;
  InterpreterDebug_rs2_addr : u32;
  InterpreterDebug_rd_addr : u32;
  InterpreterDebug_rdu : u32;
  InterpreterDebug_pcu : u32;
  InterpreterDebug_mu : u32 }.

Definition set_InterpreterDebug_ram_size (s : InterpreterDebug) (x : u32) : InterpreterDebug :=
  mk_InterpreterDebug x (InterpreterDebug_rom_size s) (InterpreterDebug_pc s) (InterpreterDebug_imm_rom s) (InterpreterDebug_rs1_rom s) (InterpreterDebug_rs2_rom s) (InterpreterDebug_rd_rom s) (InterpreterDebug_rdu_rom s) (InterpreterDebug_mu_rom s) (InterpreterDebug_pcu_rom s) (InterpreterDebug_registers s) (InterpreterDebug_ram s) (InterpreterDebug_ram_addr s) (InterpreterDebug_imm s) (InterpreterDebug_rs1_val s) (InterpreterDebug_rs2_val s) (InterpreterDebug_ram_val s) (InterpreterDebug_rd_val s) (InterpreterDebug_rs1_addr s) (InterpreterDebug_rs2_addr s) (InterpreterDebug_rd_addr s) (InterpreterDebug_rdu s) (InterpreterDebug_pcu s) (InterpreterDebug_mu s).

Definition set_InterpreterDebug_rom_size (s : InterpreterDebug) (x : u32) : InterpreterDebug :=
  mk_InterpreterDebug (InterpreterDebug_ram_size s) x (InterpreterDebug_pc s) (InterpreterDebug_imm_rom s) (InterpreterDebug_rs1_rom s) (InterpreterDebug_rs2_rom s) (InterpreterDebug_rd_rom s) (InterpreterDebug_rdu_rom s) (InterpreterDebug_mu_rom s) (InterpreterDebug_pcu_rom s) (InterpreterDebug_registers s) (InterpreterDebug_ram s) (InterpreterDebug_ram_addr s) (InterpreterDebug_imm s) (InterpreterDebug_rs1_val s) (InterpreterDebug_rs2_val s) (InterpreterDebug_ram_val s) (InterpreterDebug_rd_val s) (InterpreterDebug_rs1_addr s) (InterpreterDebug_rs2_addr s) (InterpreterDebug_rd_addr s) (InterpreterDebug_rdu s) (InterpreterDebug_pcu s) (InterpreterDebug_mu s).

Definition set_InterpreterDebug_pc (s : InterpreterDebug) (x : u32) : InterpreterDebug :=
  mk_InterpreterDebug (InterpreterDebug_ram_size s) (InterpreterDebug_rom_size s) x (InterpreterDebug_imm_rom s) (InterpreterDebug_rs1_rom s) (InterpreterDebug_rs2_rom s) (InterpreterDebug_rd_rom s) (InterpreterDebug_rdu_rom s) (InterpreterDebug_mu_rom s) (InterpreterDebug_pcu_rom s) (InterpreterDebug_registers s) (InterpreterDebug_ram s) (InterpreterDebug_ram_addr s) (InterpreterDebug_imm s) (InterpreterDebug_rs1_val s) (InterpreterDebug_rs2_val s) (InterpreterDebug_ram_val s) (InterpreterDebug_rd_val s) (InterpreterDebug_rs1_addr s) (InterpreterDebug_rs2_addr s) (InterpreterDebug_rd_addr s) (InterpreterDebug_rdu s) (InterpreterDebug_pcu s) (InterpreterDebug_mu s).

Definition set_InterpreterDebug_imm_rom (s : InterpreterDebug) (x : (list u32)) : InterpreterDebug :=
  mk_InterpreterDebug (InterpreterDebug_ram_size s) (InterpreterDebug_rom_size s) (InterpreterDebug_pc s) x (InterpreterDebug_rs1_rom s) (InterpreterDebug_rs2_rom s) (InterpreterDebug_rd_rom s) (InterpreterDebug_rdu_rom s) (InterpreterDebug_mu_rom s) (InterpreterDebug_pcu_rom s) (InterpreterDebug_registers s) (InterpreterDebug_ram s) (InterpreterDebug_ram_addr s) (InterpreterDebug_imm s) (InterpreterDebug_rs1_val s) (InterpreterDebug_rs2_val s) (InterpreterDebug_ram_val s) (InterpreterDebug_rd_val s) (InterpreterDebug_rs1_addr s) (InterpreterDebug_rs2_addr s) (InterpreterDebug_rd_addr s) (InterpreterDebug_rdu s) (InterpreterDebug_pcu s) (InterpreterDebug_mu s).

Definition set_InterpreterDebug_rs1_rom (s : InterpreterDebug) (x : (list u32)) : InterpreterDebug :=
  mk_InterpreterDebug (InterpreterDebug_ram_size s) (InterpreterDebug_rom_size s) (InterpreterDebug_pc s) (InterpreterDebug_imm_rom s) x (InterpreterDebug_rs2_rom s) (InterpreterDebug_rd_rom s) (InterpreterDebug_rdu_rom s) (InterpreterDebug_mu_rom s) (InterpreterDebug_pcu_rom s) (InterpreterDebug_registers s) (InterpreterDebug_ram s) (InterpreterDebug_ram_addr s) (InterpreterDebug_imm s) (InterpreterDebug_rs1_val s) (InterpreterDebug_rs2_val s) (InterpreterDebug_ram_val s) (InterpreterDebug_rd_val s) (InterpreterDebug_rs1_addr s) (InterpreterDebug_rs2_addr s) (InterpreterDebug_rd_addr s) (InterpreterDebug_rdu s) (InterpreterDebug_pcu s) (InterpreterDebug_mu s).

Definition set_InterpreterDebug_rs2_rom (s : InterpreterDebug) (x : (list u32)) : InterpreterDebug :=
  mk_InterpreterDebug (InterpreterDebug_ram_size s) (InterpreterDebug_rom_size s) (InterpreterDebug_pc s) (InterpreterDebug_imm_rom s) (InterpreterDebug_rs1_rom s) x (InterpreterDebug_rd_rom s) (InterpreterDebug_rdu_rom s) (InterpreterDebug_mu_rom s) (InterpreterDebug_pcu_rom s) (InterpreterDebug_registers s) (InterpreterDebug_ram s) (InterpreterDebug_ram_addr s) (InterpreterDebug_imm s) (InterpreterDebug_rs1_val s) (InterpreterDebug_rs2_val s) (InterpreterDebug_ram_val s) (InterpreterDebug_rd_val s) (InterpreterDebug_rs1_addr s) (InterpreterDebug_rs2_addr s) (InterpreterDebug_rd_addr s) (InterpreterDebug_rdu s) (InterpreterDebug_pcu s) (InterpreterDebug_mu s).

Definition set_InterpreterDebug_rd_rom (s : InterpreterDebug) (x : (list u32)) : InterpreterDebug :=
  mk_InterpreterDebug (InterpreterDebug_ram_size s) (InterpreterDebug_rom_size s) (InterpreterDebug_pc s) (InterpreterDebug_imm_rom s) (InterpreterDebug_rs1_rom s) (InterpreterDebug_rs2_rom s) x (InterpreterDebug_rdu_rom s) (InterpreterDebug_mu_rom s) (InterpreterDebug_pcu_rom s) (InterpreterDebug_registers s) (InterpreterDebug_ram s) (InterpreterDebug_ram_addr s) (InterpreterDebug_imm s) (InterpreterDebug_rs1_val s) (InterpreterDebug_rs2_val s) (InterpreterDebug_ram_val s) (InterpreterDebug_rd_val s) (InterpreterDebug_rs1_addr s) (InterpreterDebug_rs2_addr s) (InterpreterDebug_rd_addr s) (InterpreterDebug_rdu s) (InterpreterDebug_pcu s) (InterpreterDebug_mu s).

Definition set_InterpreterDebug_rdu_rom (s : InterpreterDebug) (x : (list u32)) : InterpreterDebug :=
  mk_InterpreterDebug (InterpreterDebug_ram_size s) (InterpreterDebug_rom_size s) (InterpreterDebug_pc s) (InterpreterDebug_imm_rom s) (InterpreterDebug_rs1_rom s) (InterpreterDebug_rs2_rom s) (InterpreterDebug_rd_rom s) x (InterpreterDebug_mu_rom s) (InterpreterDebug_pcu_rom s) (InterpreterDebug_registers s) (InterpreterDebug_ram s) (InterpreterDebug_ram_addr s) (InterpreterDebug_imm s) (InterpreterDebug_rs1_val s) (InterpreterDebug_rs2_val s) (InterpreterDebug_ram_val s) (InterpreterDebug_rd_val s) (InterpreterDebug_rs1_addr s) (InterpreterDebug_rs2_addr s) (InterpreterDebug_rd_addr s) (InterpreterDebug_rdu s) (InterpreterDebug_pcu s) (InterpreterDebug_mu s).

Definition set_InterpreterDebug_mu_rom (s : InterpreterDebug) (x : (list u32)) : InterpreterDebug :=
  mk_InterpreterDebug (InterpreterDebug_ram_size s) (InterpreterDebug_rom_size s) (InterpreterDebug_pc s) (InterpreterDebug_imm_rom s) (InterpreterDebug_rs1_rom s) (InterpreterDebug_rs2_rom s) (InterpreterDebug_rd_rom s) (InterpreterDebug_rdu_rom s) x (InterpreterDebug_pcu_rom s) (InterpreterDebug_registers s) (InterpreterDebug_ram s) (InterpreterDebug_ram_addr s) (InterpreterDebug_imm s) (InterpreterDebug_rs1_val s) (InterpreterDebug_rs2_val s) (InterpreterDebug_ram_val s) (InterpreterDebug_rd_val s) (InterpreterDebug_rs1_addr s) (InterpreterDebug_rs2_addr s) (InterpreterDebug_rd_addr s) (InterpreterDebug_rdu s) (InterpreterDebug_pcu s) (InterpreterDebug_mu s).

Definition set_InterpreterDebug_pcu_rom (s : InterpreterDebug) (x : (list u32)) : InterpreterDebug :=
  mk_InterpreterDebug (InterpreterDebug_ram_size s) (InterpreterDebug_rom_size s) (InterpreterDebug_pc s) (InterpreterDebug_imm_rom s) (InterpreterDebug_rs1_rom s) (InterpreterDebug_rs2_rom s) (InterpreterDebug_rd_rom s) (InterpreterDebug_rdu_rom s) (InterpreterDebug_mu_rom s) x (InterpreterDebug_registers s) (InterpreterDebug_ram s) (InterpreterDebug_ram_addr s) (InterpreterDebug_imm s) (InterpreterDebug_rs1_val s) (InterpreterDebug_rs2_val s) (InterpreterDebug_ram_val s) (InterpreterDebug_rd_val s) (InterpreterDebug_rs1_addr s) (InterpreterDebug_rs2_addr s) (InterpreterDebug_rd_addr s) (InterpreterDebug_rdu s) (InterpreterDebug_pcu s) (InterpreterDebug_mu s).

Definition set_InterpreterDebug_registers (s : InterpreterDebug) (x : (list u32)) : InterpreterDebug :=
  mk_InterpreterDebug (InterpreterDebug_ram_size s) (InterpreterDebug_rom_size s) (InterpreterDebug_pc s) (InterpreterDebug_imm_rom s) (InterpreterDebug_rs1_rom s) (InterpreterDebug_rs2_rom s) (InterpreterDebug_rd_rom s) (InterpreterDebug_rdu_rom s) (InterpreterDebug_mu_rom s) (InterpreterDebug_pcu_rom s) x (InterpreterDebug_ram s) (InterpreterDebug_ram_addr s) (InterpreterDebug_imm s) (InterpreterDebug_rs1_val s) (InterpreterDebug_rs2_val s) (InterpreterDebug_ram_val s) (InterpreterDebug_rd_val s) (InterpreterDebug_rs1_addr s) (InterpreterDebug_rs2_addr s) (InterpreterDebug_rd_addr s) (InterpreterDebug_rdu s) (InterpreterDebug_pcu s) (InterpreterDebug_mu s).

Definition set_InterpreterDebug_ram (s : InterpreterDebug) (x : (list u32)) : InterpreterDebug :=
  mk_InterpreterDebug (InterpreterDebug_ram_size s) (InterpreterDebug_rom_size s) (InterpreterDebug_pc s) (InterpreterDebug_imm_rom s) (InterpreterDebug_rs1_rom s) (InterpreterDebug_rs2_rom s) (InterpreterDebug_rd_rom s) (InterpreterDebug_rdu_rom s) (InterpreterDebug_mu_rom s) (InterpreterDebug_pcu_rom s) (InterpreterDebug_registers s) x (InterpreterDebug_ram_addr s) (InterpreterDebug_imm s) (InterpreterDebug_rs1_val s) (InterpreterDebug_rs2_val s) (InterpreterDebug_ram_val s) (InterpreterDebug_rd_val s) (InterpreterDebug_rs1_addr s) (InterpreterDebug_rs2_addr s) (InterpreterDebug_rd_addr s) (InterpreterDebug_rdu s) (InterpreterDebug_pcu s) (InterpreterDebug_mu s).

Definition set_InterpreterDebug_ram_addr (s : InterpreterDebug) (x : u32) : InterpreterDebug :=
  mk_InterpreterDebug (InterpreterDebug_ram_size s) (InterpreterDebug_rom_size s) (InterpreterDebug_pc s) (InterpreterDebug_imm_rom s) (InterpreterDebug_rs1_rom s) (InterpreterDebug_rs2_rom s) (InterpreterDebug_rd_rom s) (InterpreterDebug_rdu_rom s) (InterpreterDebug_mu_rom s) (InterpreterDebug_pcu_rom s) (InterpreterDebug_registers s) (InterpreterDebug_ram s) x (InterpreterDebug_imm s) (InterpreterDebug_rs1_val s) (InterpreterDebug_rs2_val s) (InterpreterDebug_ram_val s) (InterpreterDebug_rd_val s) (InterpreterDebug_rs1_addr s) (InterpreterDebug_rs2_addr s) (InterpreterDebug_rd_addr s) (InterpreterDebug_rdu s) (InterpreterDebug_pcu s) (InterpreterDebug_mu s).

Definition set_InterpreterDebug_imm (s : InterpreterDebug) (x : u32) : InterpreterDebug :=
  mk_InterpreterDebug (InterpreterDebug_ram_size s) (InterpreterDebug_rom_size s) (InterpreterDebug_pc s) (InterpreterDebug_imm_rom s) (InterpreterDebug_rs1_rom s) (InterpreterDebug_rs2_rom s) (InterpreterDebug_rd_rom s) (InterpreterDebug_rdu_rom s) (InterpreterDebug_mu_rom s) (InterpreterDebug_pcu_rom s) (InterpreterDebug_registers s) (InterpreterDebug_ram s) (InterpreterDebug_ram_addr s) x (InterpreterDebug_rs1_val s) (InterpreterDebug_rs2_val s) (InterpreterDebug_ram_val s) (InterpreterDebug_rd_val s) (InterpreterDebug_rs1_addr s) (InterpreterDebug_rs2_addr s) (InterpreterDebug_rd_addr s) (InterpreterDebug_rdu s) (InterpreterDebug_pcu s) (InterpreterDebug_mu s).

Definition set_InterpreterDebug_rs1_val (s : InterpreterDebug) (x : u32) : InterpreterDebug :=
  mk_InterpreterDebug (InterpreterDebug_ram_size s) (InterpreterDebug_rom_size s) (InterpreterDebug_pc s) (InterpreterDebug_imm_rom s) (InterpreterDebug_rs1_rom s) (InterpreterDebug_rs2_rom s) (InterpreterDebug_rd_rom s) (InterpreterDebug_rdu_rom s) (InterpreterDebug_mu_rom s) (InterpreterDebug_pcu_rom s) (InterpreterDebug_registers s) (InterpreterDebug_ram s) (InterpreterDebug_ram_addr s) (InterpreterDebug_imm s) x (InterpreterDebug_rs2_val s) (InterpreterDebug_ram_val s) (InterpreterDebug_rd_val s) (InterpreterDebug_rs1_addr s) (InterpreterDebug_rs2_addr s) (InterpreterDebug_rd_addr s) (InterpreterDebug_rdu s) (InterpreterDebug_pcu s) (InterpreterDebug_mu s).

Definition set_InterpreterDebug_rs2_val (s : InterpreterDebug) (x : u32) : InterpreterDebug :=
  mk_InterpreterDebug (InterpreterDebug_ram_size s) (InterpreterDebug_rom_size s) (InterpreterDebug_pc s) (InterpreterDebug_imm_rom s) (InterpreterDebug_rs1_rom s) (InterpreterDebug_rs2_rom s) (InterpreterDebug_rd_rom s) (InterpreterDebug_rdu_rom s) (InterpreterDebug_mu_rom s) (InterpreterDebug_pcu_rom s) (InterpreterDebug_registers s) (InterpreterDebug_ram s) (InterpreterDebug_ram_addr s) (InterpreterDebug_imm s) (InterpreterDebug_rs1_val s) x (InterpreterDebug_ram_val s) (InterpreterDebug_rd_val s) (InterpreterDebug_rs1_addr s) (InterpreterDebug_rs2_addr s) (InterpreterDebug_rd_addr s) (InterpreterDebug_rdu s) (InterpreterDebug_pcu s) (InterpreterDebug_mu s).

Definition set_InterpreterDebug_ram_val (s : InterpreterDebug) (x : u32) : InterpreterDebug :=
  mk_InterpreterDebug (InterpreterDebug_ram_size s) (InterpreterDebug_rom_size s) (InterpreterDebug_pc s) (InterpreterDebug_imm_rom s) (InterpreterDebug_rs1_rom s) (InterpreterDebug_rs2_rom s) (InterpreterDebug_rd_rom s) (InterpreterDebug_rdu_rom s) (InterpreterDebug_mu_rom s) (InterpreterDebug_pcu_rom s) (InterpreterDebug_registers s) (InterpreterDebug_ram s) (InterpreterDebug_ram_addr s) (InterpreterDebug_imm s) (InterpreterDebug_rs1_val s) (InterpreterDebug_rs2_val s) x (InterpreterDebug_rd_val s) (InterpreterDebug_rs1_addr s) (InterpreterDebug_rs2_addr s) (InterpreterDebug_rd_addr s) (InterpreterDebug_rdu s) (InterpreterDebug_pcu s) (InterpreterDebug_mu s).

Definition set_InterpreterDebug_rd_val (s : InterpreterDebug) (x : u32) : InterpreterDebug :=
  mk_InterpreterDebug (InterpreterDebug_ram_size s) (InterpreterDebug_rom_size s) (InterpreterDebug_pc s) (InterpreterDebug_imm_rom s) (InterpreterDebug_rs1_rom s) (InterpreterDebug_rs2_rom s) (InterpreterDebug_rd_rom s) (InterpreterDebug_rdu_rom s) (InterpreterDebug_mu_rom s) (InterpreterDebug_pcu_rom s) (InterpreterDebug_registers s) (InterpreterDebug_ram s) (InterpreterDebug_ram_addr s) (InterpreterDebug_imm s) (InterpreterDebug_rs1_val s) (InterpreterDebug_rs2_val s) (InterpreterDebug_ram_val s) x (InterpreterDebug_rs1_addr s) (InterpreterDebug_rs2_addr s) (InterpreterDebug_rd_addr s) (InterpreterDebug_rdu s) (InterpreterDebug_pcu s) (InterpreterDebug_mu s).

Definition set_InterpreterDebug_rs1_addr (s : InterpreterDebug) (x : u32) : InterpreterDebug :=
  mk_InterpreterDebug (InterpreterDebug_ram_size s) (InterpreterDebug_rom_size s) (InterpreterDebug_pc s) (InterpreterDebug_imm_rom s) (InterpreterDebug_rs1_rom s) (InterpreterDebug_rs2_rom s) (InterpreterDebug_rd_rom s) (InterpreterDebug_rdu_rom s) (InterpreterDebug_mu_rom s) (InterpreterDebug_pcu_rom s) (InterpreterDebug_registers s) (InterpreterDebug_ram s) (InterpreterDebug_ram_addr s) (InterpreterDebug_imm s) (InterpreterDebug_rs1_val s) (InterpreterDebug_rs2_val s) (InterpreterDebug_ram_val s) (InterpreterDebug_rd_val s) x (InterpreterDebug_rs2_addr s) (InterpreterDebug_rd_addr s) (InterpreterDebug_rdu s) (InterpreterDebug_pcu s) (InterpreterDebug_mu s).

Definition set_InterpreterDebug_rs2_addr (s : InterpreterDebug) (x : u32) : InterpreterDebug :=
  mk_InterpreterDebug (InterpreterDebug_ram_size s) (InterpreterDebug_rom_size s) (InterpreterDebug_pc s) (InterpreterDebug_imm_rom s) (InterpreterDebug_rs1_rom s) (InterpreterDebug_rs2_rom s) (InterpreterDebug_rd_rom s) (InterpreterDebug_rdu_rom s) (InterpreterDebug_mu_rom s) (InterpreterDebug_pcu_rom s) (InterpreterDebug_registers s) (InterpreterDebug_ram s) (InterpreterDebug_ram_addr s) (InterpreterDebug_imm s) (InterpreterDebug_rs1_val s) (InterpreterDebug_rs2_val s) (InterpreterDebug_ram_val s) (InterpreterDebug_rd_val s) (InterpreterDebug_rs1_addr s) x (InterpreterDebug_rd_addr s) (InterpreterDebug_rdu s) (InterpreterDebug_pcu s) (InterpreterDebug_mu s).

Definition set_InterpreterDebug_rd_addr (s : InterpreterDebug) (x : u32) : InterpreterDebug :=
  mk_InterpreterDebug (InterpreterDebug_ram_size s) (InterpreterDebug_rom_size s) (InterpreterDebug_pc s) (InterpreterDebug_imm_rom s) (InterpreterDebug_rs1_rom s) (InterpreterDebug_rs2_rom s) (InterpreterDebug_rd_rom s) (InterpreterDebug_rdu_rom s) (InterpreterDebug_mu_rom s) (InterpreterDebug_pcu_rom s) (InterpreterDebug_registers s) (InterpreterDebug_ram s) (InterpreterDebug_ram_addr s) (InterpreterDebug_imm s) (InterpreterDebug_rs1_val s) (InterpreterDebug_rs2_val s) (InterpreterDebug_ram_val s) (InterpreterDebug_rd_val s) (InterpreterDebug_rs1_addr s) (InterpreterDebug_rs2_addr s) x (InterpreterDebug_rdu s) (InterpreterDebug_pcu s) (InterpreterDebug_mu s).

Definition set_InterpreterDebug_rdu (s : InterpreterDebug) (x : u32) : InterpreterDebug :=
  mk_InterpreterDebug (InterpreterDebug_ram_size s) (InterpreterDebug_rom_size s) (InterpreterDebug_pc s) (InterpreterDebug_imm_rom s) (InterpreterDebug_rs1_rom s) (InterpreterDebug_rs2_rom s) (InterpreterDebug_rd_rom s) (InterpreterDebug_rdu_rom s) (InterpreterDebug_mu_rom s) (InterpreterDebug_pcu_rom s) (InterpreterDebug_registers s) (InterpreterDebug_ram s) (InterpreterDebug_ram_addr s) (InterpreterDebug_imm s) (InterpreterDebug_rs1_val s) (InterpreterDebug_rs2_val s) (InterpreterDebug_ram_val s) (InterpreterDebug_rd_val s) (InterpreterDebug_rs1_addr s) (InterpreterDebug_rs2_addr s) (InterpreterDebug_rd_addr s) x (InterpreterDebug_pcu s) (InterpreterDebug_mu s).

Definition set_InterpreterDebug_pcu (s : InterpreterDebug) (x : u32) : InterpreterDebug :=
  mk_InterpreterDebug (InterpreterDebug_ram_size s) (InterpreterDebug_rom_size s) (InterpreterDebug_pc s) (InterpreterDebug_imm_rom s) (InterpreterDebug_rs1_rom s) (InterpreterDebug_rs2_rom s) (InterpreterDebug_rd_rom s) (InterpreterDebug_rdu_rom s) (InterpreterDebug_mu_rom s) (InterpreterDebug_pcu_rom s) (InterpreterDebug_registers s) (InterpreterDebug_ram s) (InterpreterDebug_ram_addr s) (InterpreterDebug_imm s) (InterpreterDebug_rs1_val s) (InterpreterDebug_rs2_val s) (InterpreterDebug_ram_val s) (InterpreterDebug_rd_val s) (InterpreterDebug_rs1_addr s) (InterpreterDebug_rs2_addr s) (InterpreterDebug_rd_addr s) (InterpreterDebug_rdu s) x (InterpreterDebug_mu s).

Definition set_InterpreterDebug_mu (s : InterpreterDebug) (x : u32) : InterpreterDebug :=
  mk_InterpreterDebug (InterpreterDebug_ram_size s) (InterpreterDebug_rom_size s) (InterpreterDebug_pc s) (InterpreterDebug_imm_rom s) (InterpreterDebug_rs1_rom s) (InterpreterDebug_rs2_rom s) (InterpreterDebug_rd_rom s) (InterpreterDebug_rdu_rom s) (InterpreterDebug_mu_rom s) (InterpreterDebug_pcu_rom s) (InterpreterDebug_registers s) (InterpreterDebug_ram s) (InterpreterDebug_ram_addr s) (InterpreterDebug_imm s) (InterpreterDebug_rs1_val s) (InterpreterDebug_rs2_val s) (InterpreterDebug_ram_val s) (InterpreterDebug_rd_val s) (InterpreterDebug_rs1_addr s) (InterpreterDebug_rs2_addr s) (InterpreterDebug_rd_addr s) (InterpreterDebug_rdu s) (InterpreterDebug_pcu s) x.

(** fhevm/src/debug.rs:34-61 *)
Definition InterpreterDebug_new (p : Rust.profile) (rom_size : usize) (ram_size : usize) : option InterpreterDebug :=
  Some (mk_InterpreterDebug (Rust.cast Rust.U32 ram_size) (Rust.cast Rust.U32 rom_size) (Rust.lit 0) (Rust.filled (Rust.lit (t := Rust.U32) 0) rom_size) (Rust.filled (Rust.lit (t := Rust.U32) 0) rom_size) (Rust.filled (Rust.lit (t := Rust.U32) 0) rom_size) (Rust.filled (Rust.lit (t := Rust.U32) 0) rom_size) (Rust.filled (Rust.lit (t := Rust.U32) 0) rom_size) (Rust.filled (Rust.lit (t := Rust.U32) 0) rom_size) (Rust.filled (Rust.lit (t := Rust.U32) 0) rom_size) (Rust.filled (Rust.lit (t := Rust.U32) 0) (Rust.lit 32)) (Rust.filled (Rust.lit (t := Rust.U32) 0) ram_size) (Rust.lit 0) (Rust.lit 0) (Rust.lit 0) (Rust.lit 0) (Rust.lit 0) (Rust.lit 0) (Rust.lit 0) (Rust.lit 0) (Rust.lit 0) (Rust.lit 0) (Rust.lit 0) (Rust.lit 0)).

(** fhevm/src/debug.rs:63-76 *)
Definition InterpreterDebug_set_instructions (p : Rust.profile) (self : InterpreterDebug) (instructions : InstructionsParser) : option InterpreterDebug :=
  if (Rust.eq (Rust.len (InterpreterDebug_imm_rom self)) (Rust.len (InstructionsParser_instructions instructions))) then self <- Rust.for_range (Rust.lit 0) (Rust.len (InstructionsParser_instructions instructions)) (fun i self => t1 <- InstructionsParser_get_raw p instructions i ;;
    t2 <- Instruction_get_imm p t1 ;;
    let t3 : u32 := (Rust.cast Rust.U32 t2) in
    t4 <- Rust.store (InterpreterDebug_imm_rom self) i t3 ;;
    let self := (set_InterpreterDebug_imm_rom self t4) in
    t5 <- InstructionsParser_get_raw p instructions i ;;
    t6 <- Instruction_get_registers p t5 ;;
    let '(rs2, rs1, rd) := t6 in
    let t7 : u32 := (Rust.cast Rust.U32 rs1) in
    t8 <- Rust.store (InterpreterDebug_rs1_rom self) i t7 ;;
    let self := (set_InterpreterDebug_rs1_rom self t8) in
    let t9 : u32 := (Rust.cast Rust.U32 rs2) in
    t10 <- Rust.store (InterpreterDebug_rs2_rom self) i t9 ;;
    let self := (set_InterpreterDebug_rs2_rom self t10) in
    let t11 : u32 := (Rust.cast Rust.U32 rd) in
    t12 <- Rust.store (InterpreterDebug_rd_rom self) i t11 ;;
    let self := (set_InterpreterDebug_rd_rom self t12) in
    t13 <- InstructionsParser_get_raw p instructions i ;;
    t14 <- Instruction_get_opid p t13 ;;
    let '(rdu, mu, pcu) := t14 in
    let t15 : u32 := (Rust.cast Rust.U32 (RD_UPDATE_discriminant rdu)) in
    t16 <- Rust.store (InterpreterDebug_rdu_rom self) i t15 ;;
    let self := (set_InterpreterDebug_rdu_rom self t16) in
    let t17 : u32 := (Rust.cast Rust.U32 (RAM_UPDATE_discriminant mu)) in
    t18 <- Rust.store (InterpreterDebug_mu_rom self) i t17 ;;
    let self := (set_InterpreterDebug_mu_rom self t18) in
    let t19 : u32 := (Rust.cast Rust.U32 (PC_UPDATE_discriminant pcu)) in
    t20 <- Rust.store (InterpreterDebug_pcu_rom self) i t19 ;;
    let self := (set_InterpreterDebug_pcu_rom self t20) in
    Some self) self ;;
  Some self else None.

(** fhevm/src/debug.rs:78-81 *)
Definition InterpreterDebug_set_ram (p : Rust.profile) (self : InterpreterDebug) (ram : (list u32)) : option InterpreterDebug :=
  if (Rust.eq (Rust.len (InterpreterDebug_ram self)) (Rust.len ram)) then t1 <- Rust.copy_from_slice (InterpreterDebug_ram self) ram ;;
  let self := (set_InterpreterDebug_ram self t1) in
  Some self else None.

(** fhevm/src/debug.rs:83-92 *)
Definition InterpreterDebug_read_instructions (p : Rust.profile) (self : InterpreterDebug) : option InterpreterDebug :=
  t1 <- Rust.shr p (InterpreterDebug_pc self) (Rust.lit (t := Rust.I32) 2) ;;
  let pc : usize := (Rust.cast Rust.USize t1) in
  t2 <- Rust.index (InterpreterDebug_imm_rom self) pc ;;
  let self := (set_InterpreterDebug_imm self t2) in
  t3 <- Rust.index (InterpreterDebug_rs1_rom self) pc ;;
  let self := (set_InterpreterDebug_rs1_addr self t3) in
  t4 <- Rust.index (InterpreterDebug_rs2_rom self) pc ;;
  let self := (set_InterpreterDebug_rs2_addr self t4) in
  t5 <- Rust.index (InterpreterDebug_rd_rom self) pc ;;
  let self := (set_InterpreterDebug_rd_addr self t5) in
  t6 <- Rust.index (InterpreterDebug_rdu_rom self) pc ;;
  let self := (set_InterpreterDebug_rdu self t6) in
  t7 <- Rust.index (InterpreterDebug_pcu_rom self) pc ;;
  let self := (set_InterpreterDebug_pcu self t7) in
  t8 <- Rust.index (InterpreterDebug_mu_rom self) pc ;;
  let self := (set_InterpreterDebug_mu self t8) in
  Some self.

(** fhevm/src/debug.rs:94-97 *)
Definition InterpreterDebug_read_registers (p : Rust.profile) (self : InterpreterDebug) : option InterpreterDebug :=
  t1 <- Rust.index (InterpreterDebug_registers self) (Rust.cast Rust.USize (InterpreterDebug_rs1_addr self)) ;;
  let self := (set_InterpreterDebug_rs1_val self t1) in
  t2 <- Rust.index (InterpreterDebug_registers self) (Rust.cast Rust.USize (InterpreterDebug_rs2_addr self)) ;;
  let self := (set_InterpreterDebug_rs2_val self t2) in
  Some self.

(** fhevm/src/debug.rs:99-102 *)
Definition InterpreterDebug_read_ram (p : Rust.profile) (self : InterpreterDebug) : option InterpreterDebug :=
  t1 <- Rust.shl p (Rust.lit 1) (Rust.lit (t := Rust.I32) 18) ;;
  let t2 : u32 := (Rust.wrapping_sub (Rust.wrapping_add (InterpreterDebug_imm self) (InterpreterDebug_rs1_val self)) t1) in
  let self := (set_InterpreterDebug_ram_addr self t2) in
  t3 <- Rust.shr p (InterpreterDebug_ram_addr self) (Rust.lit (t := Rust.I32) 2) ;;
  t4 <- Rust.rem (Rust.cast Rust.USize t3) (Rust.cast Rust.USize (InterpreterDebug_ram_size self)) ;;
  t5 <- Rust.index (InterpreterDebug_ram self) t4 ;;
  let self := (set_InterpreterDebug_ram_val self t5) in
  Some self.

(** fhevm/src/debug.rs:104-121 *)
Definition InterpreterDebug_update_registers (p : Rust.profile) (self : InterpreterDebug) (ops : (list RD_UPDATE)) : option InterpreterDebug :=
  let rd_map : (list (u32 * u32)) := Rust.map_new in
  let imm : u32 := (InterpreterDebug_imm self) in
  let rs1 : u32 := (InterpreterDebug_rs1_val self) in
  let rs2 : u32 := (InterpreterDebug_rs2_val self) in
  let ram : u32 := (InterpreterDebug_ram_val self) in
  let pc : u32 := (InterpreterDebug_pc self) in
  rd_map <- Rust.for_each ops (fun op rd_map => t1 <- RD_UPDATE_id p op ;;
    t2 <- RD_UPDATE_eval_plain p op imm rs1 rs2 pc ram ;;
    let rd_map := (Rust.insert rd_map t1 t2) in
    Some rd_map) rd_map ;;
  t3 <- (Rust.find rd_map (InterpreterDebug_rdu self)) ;;
  let self := (set_InterpreterDebug_rd_val self t3) in
  let t4 : u32 := (InterpreterDebug_rd_val self) in
  t5 <- Rust.store (InterpreterDebug_registers self) (Rust.cast Rust.USize (InterpreterDebug_rd_addr self)) t4 ;;
  let self := (set_InterpreterDebug_registers self t5) in
  let t6 : u32 := (Rust.lit 0) in
  t7 <- Rust.store (InterpreterDebug_registers self) (Rust.lit 0) t6 ;;
  let self := (set_InterpreterDebug_registers self t7) in
  Some self.

(** fhevm/src/debug.rs:123-135 *)
Definition InterpreterDebug_update_ram (p : Rust.profile) (self : InterpreterDebug) : option InterpreterDebug :=
  let rs2 : u32 := (InterpreterDebug_rs2_val self) in
  let ram : u32 := (InterpreterDebug_ram_val self) in
  let offset : u32 := (Rust.band (InterpreterDebug_ram_addr self) (Rust.lit 3)) in
  let ram_map : (list (u32 * u32)) := Rust.map_new in
  ram_map <- Rust.for_each instructions_RAM_UPDATE_OP_LIST (fun op ram_map => t1 <- RAM_UPDATE_id p op ;;
    t2 <- RAM_UPDATE_eval_plain p op rs2 ram offset ;;
    let ram_map := (Rust.insert ram_map t1 t2) in
    Some ram_map) ram_map ;;
  t3 <- (Rust.find ram_map (InterpreterDebug_mu self)) ;;
  let self := (set_InterpreterDebug_ram_val self t3) in
  let t4 : u32 := (InterpreterDebug_ram_val self) in
  t5 <- Rust.shr p (InterpreterDebug_ram_addr self) (Rust.lit (t := Rust.I32) 2) ;;
  t6 <- Rust.rem (Rust.cast Rust.USize t5) (Rust.cast Rust.USize (InterpreterDebug_ram_size self)) ;;
  t7 <- Rust.store (InterpreterDebug_ram self) t6 t4 ;;
  let self := (set_InterpreterDebug_ram self t7) in
  Some self.

(** fhevm/src/debug.rs:137-149 *)
Definition InterpreterDebug_update_pc (p : Rust.profile) (self : InterpreterDebug) : option InterpreterDebug :=
  let imm : u32 := (InterpreterDebug_imm self) in
  let rs1 : u32 := (InterpreterDebug_rs1_val self) in
  let rs2 : u32 := (InterpreterDebug_rs2_val self) in
  let pc : u32 := (InterpreterDebug_pc self) in
  let pc_map : (list (u32 * u32)) := Rust.map_new in
  pc_map <- Rust.for_each instructions_PC_UPDATE_OP_LIST (fun op pc_map => t1 <- PC_UPDATE_id p op ;;
    t2 <- PC_UPDATE_eval_plain p op imm rs1 rs2 pc ;;
    let pc_map := (Rust.insert pc_map t1 t2) in
    Some pc_map) pc_map ;;
  t3 <- (Rust.find pc_map (InterpreterDebug_pcu self)) ;;
  let self := (set_InterpreterDebug_pc self t3) in
  Some self.
