(** * The times and noises of the cycles, translated

    Generated by tools/gen_params.py from fhevm/src/measurements.rs.
    Do not edit.  The operators are those of Rust.v. *)
Require Import ZArith List Bool.
From Verif Require Import Rust.
From Verif Require Import RustIter.
From Verif Require Import RustParams.
Import ListNotations.
Open Scope Z_scope.
Local Notation u8 := (Rust.int Rust.U8).
Local Notation u16 := (Rust.int Rust.U16).
Local Notation u32 := (Rust.int Rust.U32).
Local Notation u64 := (Rust.int Rust.U64).
Local Notation usize := (Rust.int Rust.USize).
Local Notation i32 := (Rust.int Rust.I32).
Local Notation i64 := (Rust.int Rust.I64).


(** fhevm/src/measurements.rs:291-338 *)
Record Measurement := mk_Measurement {
  Measurement_total_cycle_time : Duration;
  Measurement_time_prepare_pc : Duration;
  Measurement_time_read_and_prepare_rom : Duration;
  Measurement_time_read_rom : Duration;
  Measurement_time_prepare_rom : Duration;
  Measurement_time_read_and_prepare_registers : Duration;
  Measurement_time_read_registers : Duration;
  Measurement_time_prepare_registers : Duration;
  Measurement_time_read_ram : Duration;
  Measurement_time_derive_ram_addr : Duration;
  Measurement_time_prepare_ram_addr : Duration;
  Measurement_time_prepare_ram_read_statefull : Duration;
  Measurement_time_update_registers : Duration;
  Measurement_time_evaluate_rd_ops : Duration;
  Measurement_time_blind_select_rd : Duration;
  Measurement_time_refresh_rd : Duration;
  Measurement_time_write_rd : Duration;
  Measurement_time_update_ram : Duration;
  Measurement_time_ram_update_op_eval : Duration;
  Measurement_time_blind_select_ram_value : Duration;
  Measurement_time_refresh_ram_value : Duration;
  Measurement_time_write_ram : Duration;
  Measurement_time_update_pc : Duration;
  Measurement_pc_val_fhe_uint_noise : f64;
  Measurement_imm_val_fhe_uint_noise : f64;
  Measurement_ram_addr_read_noise : f64;
  Measurement_ram_val_read_noise : f64;
  Measurement_rd_val_fhe_uint_noise : f64 }.

Definition set_Measurement_total_cycle_time (s : Measurement) (x : Duration) : Measurement :=
  mk_Measurement x (Measurement_time_prepare_pc s) (Measurement_time_read_and_prepare_rom s) (Measurement_time_read_rom s) (Measurement_time_prepare_rom s) (Measurement_time_read_and_prepare_registers s) (Measurement_time_read_registers s) (Measurement_time_prepare_registers s) (Measurement_time_read_ram s) (Measurement_time_derive_ram_addr s) (Measurement_time_prepare_ram_addr s) (Measurement_time_prepare_ram_read_statefull s) (Measurement_time_update_registers s) (Measurement_time_evaluate_rd_ops s) (Measurement_time_blind_select_rd s) (Measurement_time_refresh_rd s) (Measurement_time_write_rd s) (Measurement_time_update_ram s) (Measurement_time_ram_update_op_eval s) (Measurement_time_blind_select_ram_value s) (Measurement_time_refresh_ram_value s) (Measurement_time_write_ram s) (Measurement_time_update_pc s) (Measurement_pc_val_fhe_uint_noise s) (Measurement_imm_val_fhe_uint_noise s) (Measurement_ram_addr_read_noise s) (Measurement_ram_val_read_noise s) (Measurement_rd_val_fhe_uint_noise s).

Definition set_Measurement_time_prepare_pc (s : Measurement) (x : Duration) : Measurement :=
  mk_Measurement (Measurement_total_cycle_time s) x (Measurement_time_read_and_prepare_rom s) (Measurement_time_read_rom s) (Measurement_time_prepare_rom s) (Measurement_time_read_and_prepare_registers s) (Measurement_time_read_registers s) (Measurement_time_prepare_registers s) (Measurement_time_read_ram s) (Measurement_time_derive_ram_addr s) (Measurement_time_prepare_ram_addr s) (Measurement_time_prepare_ram_read_statefull s) (Measurement_time_update_registers s) (Measurement_time_evaluate_rd_ops s) (Measurement_time_blind_select_rd s) (Measurement_time_refresh_rd s) (Measurement_time_write_rd s) (Measurement_time_update_ram s) (Measurement_time_ram_update_op_eval s) (Measurement_time_blind_select_ram_value s) (Measurement_time_refresh_ram_value s) (Measurement_time_write_ram s) (Measurement_time_update_pc s) (Measurement_pc_val_fhe_uint_noise s) (Measurement_imm_val_fhe_uint_noise s) (Measurement_ram_addr_read_noise s) (Measurement_ram_val_read_noise s) (Measurement_rd_val_fhe_uint_noise s).

Definition set_Measurement_time_read_and_prepare_rom (s : Measurement) (x : Duration) : Measurement :=
  mk_Measurement (Measurement_total_cycle_time s) (Measurement_time_prepare_pc s) x (Measurement_time_read_rom s) (Measurement_time_prepare_rom s) (Measurement_time_read_and_prepare_registers s) (Measurement_time_read_registers s) (Measurement_time_prepare_registers s) (Measurement_time_read_ram s) (Measurement_time_derive_ram_addr s) (Measurement_time_prepare_ram_addr s) (Measurement_time_prepare_ram_read_statefull s) (Measurement_time_update_registers s) (Measurement_time_evaluate_rd_ops s) (Measurement_time_blind_select_rd s) (Measurement_time_refresh_rd s) (Measurement_time_write_rd s) (Measurement_time_update_ram s) (Measurement_time_ram_update_op_eval s) (Measurement_time_blind_select_ram_value s) (Measurement_time_refresh_ram_value s) (Measurement_time_write_ram s) (Measurement_time_update_pc s) (Measurement_pc_val_fhe_uint_noise s) (Measurement_imm_val_fhe_uint_noise s) (Measurement_ram_addr_read_noise s) (Measurement_ram_val_read_noise s) (Measurement_rd_val_fhe_uint_noise s).

Definition set_Measurement_time_read_rom (s : Measurement) (x : Duration) : Measurement :=
  mk_Measurement (Measurement_total_cycle_time s) (Measurement_time_prepare_pc s) (Measurement_time_read_and_prepare_rom s) x (Measurement_time_prepare_rom s) (Measurement_time_read_and_prepare_registers s) (Measurement_time_read_registers s) (Measurement_time_prepare_registers s) (Measurement_time_read_ram s) (Measurement_time_derive_ram_addr s) (Measurement_time_prepare_ram_addr s) (Measurement_time_prepare_ram_read_statefull s) (Measurement_time_update_registers s) (Measurement_time_evaluate_rd_ops s) (Measurement_time_blind_select_rd s) (Measurement_time_refresh_rd s) (Measurement_time_write_rd s) (Measurement_time_update_ram s) (Measurement_time_ram_update_op_eval s) (Measurement_time_blind_select_ram_value s) (Measurement_time_refresh_ram_value s) (Measurement_time_write_ram s) (Measurement_time_update_pc s) (Measurement_pc_val_fhe_uint_noise s) (Measurement_imm_val_fhe_uint_noise s) (Measurement_ram_addr_read_noise s) (Measurement_ram_val_read_noise s) (Measurement_rd_val_fhe_uint_noise s).

Definition set_Measurement_time_prepare_rom (s : Measurement) (x : Duration) : Measurement :=
  mk_Measurement (Measurement_total_cycle_time s) (Measurement_time_prepare_pc s) (Measurement_time_read_and_prepare_rom s) (Measurement_time_read_rom s) x (Measurement_time_read_and_prepare_registers s) (Measurement_time_read_registers s) (Measurement_time_prepare_registers s) (Measurement_time_read_ram s) (Measurement_time_derive_ram_addr s) (Measurement_time_prepare_ram_addr s) (Measurement_time_prepare_ram_read_statefull s) (Measurement_time_update_registers s) (Measurement_time_evaluate_rd_ops s) (Measurement_time_blind_select_rd s) (Measurement_time_refresh_rd s) (Measurement_time_write_rd s) (Measurement_time_update_ram s) (Measurement_time_ram_update_op_eval s) (Measurement_time_blind_select_ram_value s) (Measurement_time_refresh_ram_value s) (Measurement_time_write_ram s) (Measurement_time_update_pc s) (Measurement_pc_val_fhe_uint_noise s) (Measurement_imm_val_fhe_uint_noise s) (Measurement_ram_addr_read_noise s) (Measurement_ram_val_read_noise s) (Measurement_rd_val_fhe_uint_noise s).

Definition set_Measurement_time_read_and_prepare_registers (s : Measurement) (x : Duration) : Measurement :=
  mk_Measurement (Measurement_total_cycle_time s) (Measurement_time_prepare_pc s) (Measurement_time_read_and_prepare_rom s) (Measurement_time_read_rom s) (Measurement_time_prepare_rom s) x (Measurement_time_read_registers s) (Measurement_time_prepare_registers s) (Measurement_time_read_ram s) (Measurement_time_derive_ram_addr s) (Measurement_time_prepare_ram_addr s) (Measurement_time_prepare_ram_read_statefull s) (Measurement_time_update_registers s) (Measurement_time_evaluate_rd_ops s) (Measurement_time_blind_select_rd s) (Measurement_time_refresh_rd s) (Measurement_time_write_rd s) (Measurement_time_update_ram s) (Measurement_time_ram_update_op_eval s) (Measurement_time_blind_select_ram_value s) (Measurement_time_refresh_ram_value s) (Measurement_time_write_ram s) (Measurement_time_update_pc s) (Measurement_pc_val_fhe_uint_noise s) (Measurement_imm_val_fhe_uint_noise s) (Measurement_ram_addr_read_noise s) (Measurement_ram_val_read_noise s) (Measurement_rd_val_fhe_uint_noise s).

Definition set_Measurement_time_read_registers (s : Measurement) (x : Duration) : Measurement :=
  mk_Measurement (Measurement_total_cycle_time s) (Measurement_time_prepare_pc s) (Measurement_time_read_and_prepare_rom s) (Measurement_time_read_rom s) (Measurement_time_prepare_rom s) (Measurement_time_read_and_prepare_registers s) x (Measurement_time_prepare_registers s) (Measurement_time_read_ram s) (Measurement_time_derive_ram_addr s) (Measurement_time_prepare_ram_addr s) (Measurement_time_prepare_ram_read_statefull s) (Measurement_time_update_registers s) (Measurement_time_evaluate_rd_ops s) (Measurement_time_blind_select_rd s) (Measurement_time_refresh_rd s) (Measurement_time_write_rd s) (Measurement_time_update_ram s) (Measurement_time_ram_update_op_eval s) (Measurement_time_blind_select_ram_value s) (Measurement_time_refresh_ram_value s) (Measurement_time_write_ram s) (Measurement_time_update_pc s) (Measurement_pc_val_fhe_uint_noise s) (Measurement_imm_val_fhe_uint_noise s) (Measurement_ram_addr_read_noise s) (Measurement_ram_val_read_noise s) (Measurement_rd_val_fhe_uint_noise s).

Definition set_Measurement_time_prepare_registers (s : Measurement) (x : Duration) : Measurement :=
  mk_Measurement (Measurement_total_cycle_time s) (Measurement_time_prepare_pc s) (Measurement_time_read_and_prepare_rom s) (Measurement_time_read_rom s) (Measurement_time_prepare_rom s) (Measurement_time_read_and_prepare_registers s) (Measurement_time_read_registers s) x (Measurement_time_read_ram s) (Measurement_time_derive_ram_addr s) (Measurement_time_prepare_ram_addr s) (Measurement_time_prepare_ram_read_statefull s) (Measurement_time_update_registers s) (Measurement_time_evaluate_rd_ops s) (Measurement_time_blind_select_rd s) (Measurement_time_refresh_rd s) (Measurement_time_write_rd s) (Measurement_time_update_ram s) (Measurement_time_ram_update_op_eval s) (Measurement_time_blind_select_ram_value s) (Measurement_time_refresh_ram_value s) (Measurement_time_write_ram s) (Measurement_time_update_pc s) (Measurement_pc_val_fhe_uint_noise s) (Measurement_imm_val_fhe_uint_noise s) (Measurement_ram_addr_read_noise s) (Measurement_ram_val_read_noise s) (Measurement_rd_val_fhe_uint_noise s).

Definition set_Measurement_time_read_ram (s : Measurement) (x : Duration) : Measurement :=
  mk_Measurement (Measurement_total_cycle_time s) (Measurement_time_prepare_pc s) (Measurement_time_read_and_prepare_rom s) (Measurement_time_read_rom s) (Measurement_time_prepare_rom s) (Measurement_time_read_and_prepare_registers s) (Measurement_time_read_registers s) (Measurement_time_prepare_registers s) x (Measurement_time_derive_ram_addr s) (Measurement_time_prepare_ram_addr s) (Measurement_time_prepare_ram_read_statefull s) (Measurement_time_update_registers s) (Measurement_time_evaluate_rd_ops s) (Measurement_time_blind_select_rd s) (Measurement_time_refresh_rd s) (Measurement_time_write_rd s) (Measurement_time_update_ram s) (Measurement_time_ram_update_op_eval s) (Measurement_time_blind_select_ram_value s) (Measurement_time_refresh_ram_value s) (Measurement_time_write_ram s) (Measurement_time_update_pc s) (Measurement_pc_val_fhe_uint_noise s) (Measurement_imm_val_fhe_uint_noise s) (Measurement_ram_addr_read_noise s) (Measurement_ram_val_read_noise s) (Measurement_rd_val_fhe_uint_noise s).

Definition set_Measurement_time_derive_ram_addr (s : Measurement) (x : Duration) : Measurement :=
  mk_Measurement (Measurement_total_cycle_time s) (Measurement_time_prepare_pc s) (Measurement_time_read_and_prepare_rom s) (Measurement_time_read_rom s) (Measurement_time_prepare_rom s) (Measurement_time_read_and_prepare_registers s) (Measurement_time_read_registers s) (Measurement_time_prepare_registers s) (Measurement_time_read_ram s) x (Measurement_time_prepare_ram_addr s) (Measurement_time_prepare_ram_read_statefull s) (Measurement_time_update_registers s) (Measurement_time_evaluate_rd_ops s) (Measurement_time_blind_select_rd s) (Measurement_time_refresh_rd s) (Measurement_time_write_rd s) (Measurement_time_update_ram s) (Measurement_time_ram_update_op_eval s) (Measurement_time_blind_select_ram_value s) (Measurement_time_refresh_ram_value s) (Measurement_time_write_ram s) (Measurement_time_update_pc s) (Measurement_pc_val_fhe_uint_noise s) (Measurement_imm_val_fhe_uint_noise s) (Measurement_ram_addr_read_noise s) (Measurement_ram_val_read_noise s) (Measurement_rd_val_fhe_uint_noise s).

Definition set_Measurement_time_prepare_ram_addr (s : Measurement) (x : Duration) : Measurement :=
  mk_Measurement (Measurement_total_cycle_time s) (Measurement_time_prepare_pc s) (Measurement_time_read_and_prepare_rom s) (Measurement_time_read_rom s) (Measurement_time_prepare_rom s) (Measurement_time_read_and_prepare_registers s) (Measurement_time_read_registers s) (Measurement_time_prepare_registers s) (Measurement_time_read_ram s) (Measurement_time_derive_ram_addr s) x (Measurement_time_prepare_ram_read_statefull s) (Measurement_time_update_registers s) (Measurement_time_evaluate_rd_ops s) (Measurement_time_blind_select_rd s) (Measurement_time_refresh_rd s) (Measurement_time_write_rd s) (Measurement_time_update_ram s) (Measurement_time_ram_update_op_eval s) (Measurement_time_blind_select_ram_value s) (Measurement_time_refresh_ram_value s) (Measurement_time_write_ram s) (Measurement_time_update_pc s) (Measurement_pc_val_fhe_uint_noise s) (Measurement_imm_val_fhe_uint_noise s) (Measurement_ram_addr_read_noise s) (Measurement_ram_val_read_noise s) (Measurement_rd_val_fhe_uint_noise s).

Definition set_Measurement_time_prepare_ram_read_statefull (s : Measurement) (x : Duration) : Measurement :=
  mk_Measurement (Measurement_total_cycle_time s) (Measurement_time_prepare_pc s) (Measurement_time_read_and_prepare_rom s) (Measurement_time_read_rom s) (Measurement_time_prepare_rom s) (Measurement_time_read_and_prepare_registers s) (Measurement_time_read_registers s) (Measurement_time_prepare_registers s) (Measurement_time_read_ram s) (Measurement_time_derive_ram_addr s) (Measurement_time_prepare_ram_addr s) x (Measurement_time_update_registers s) (Measurement_time_evaluate_rd_ops s) (Measurement_time_blind_select_rd s) (Measurement_time_refresh_rd s) (Measurement_time_write_rd s) (Measurement_time_update_ram s) (Measurement_time_ram_update_op_eval s) (Measurement_time_blind_select_ram_value s) (Measurement_time_refresh_ram_value s) (Measurement_time_write_ram s) (Measurement_time_update_pc s) (Measurement_pc_val_fhe_uint_noise s) (Measurement_imm_val_fhe_uint_noise s) (Measurement_ram_addr_read_noise s) (Measurement_ram_val_read_noise s) (Measurement_rd_val_fhe_uint_noise s).

Definition set_Measurement_time_update_registers (s : Measurement) (x : Duration) : Measurement :=
  mk_Measurement (Measurement_total_cycle_time s) (Measurement_time_prepare_pc s) (Measurement_time_read_and_prepare_rom s) (Measurement_time_read_rom s) (Measurement_time_prepare_rom s) (Measurement_time_read_and_prepare_registers s) (Measurement_time_read_registers s) (Measurement_time_prepare_registers s) (Measurement_time_read_ram s) (Measurement_time_derive_ram_addr s) (Measurement_time_prepare_ram_addr s) (Measurement_time_prepare_ram_read_statefull s) x (Measurement_time_evaluate_rd_ops s) (Measurement_time_blind_select_rd s) (Measurement_time_refresh_rd s) (Measurement_time_write_rd s) (Measurement_time_update_ram s) (Measurement_time_ram_update_op_eval s) (Measurement_time_blind_select_ram_value s) (Measurement_time_refresh_ram_value s) (Measurement_time_write_ram s) (Measurement_time_update_pc s) (Measurement_pc_val_fhe_uint_noise s) (Measurement_imm_val_fhe_uint_noise s) (Measurement_ram_addr_read_noise s) (Measurement_ram_val_read_noise s) (Measurement_rd_val_fhe_uint_noise s).

Definition set_Measurement_time_evaluate_rd_ops (s : Measurement) (x : Duration) : Measurement :=
  mk_Measurement (Measurement_total_cycle_time s) (Measurement_time_prepare_pc s) (Measurement_time_read_and_prepare_rom s) (Measurement_time_read_rom s) (Measurement_time_prepare_rom s) (Measurement_time_read_and_prepare_registers s) (Measurement_time_read_registers s) (Measurement_time_prepare_registers s) (Measurement_time_read_ram s) (Measurement_time_derive_ram_addr s) (Measurement_time_prepare_ram_addr s) (Measurement_time_prepare_ram_read_statefull s) (Measurement_time_update_registers s) x (Measurement_time_blind_select_rd s) (Measurement_time_refresh_rd s) (Measurement_time_write_rd s) (Measurement_time_update_ram s) (Measurement_time_ram_update_op_eval s) (Measurement_time_blind_select_ram_value s) (Measurement_time_refresh_ram_value s) (Measurement_time_write_ram s) (Measurement_time_update_pc s) (Measurement_pc_val_fhe_uint_noise s) (Measurement_imm_val_fhe_uint_noise s) (Measurement_ram_addr_read_noise s) (Measurement_ram_val_read_noise s) (Measurement_rd_val_fhe_uint_noise s).

Definition set_Measurement_time_blind_select_rd (s : Measurement) (x : Duration) : Measurement :=
  mk_Measurement (Measurement_total_cycle_time s) (Measurement_time_prepare_pc s) (Measurement_time_read_and_prepare_rom s) (Measurement_time_read_rom s) (Measurement_time_prepare_rom s) (Measurement_time_read_and_prepare_registers s) (Measurement_time_read_registers s) (Measurement_time_prepare_registers s) (Measurement_time_read_ram s) (Measurement_time_derive_ram_addr s) (Measurement_time_prepare_ram_addr s) (Measurement_time_prepare_ram_read_statefull s) (Measurement_time_update_registers s) (Measurement_time_evaluate_rd_ops s) x (Measurement_time_refresh_rd s) (Measurement_time_write_rd s) (Measurement_time_update_ram s) (Measurement_time_ram_update_op_eval s) (Measurement_time_blind_select_ram_value s) (Measurement_time_refresh_ram_value s) (Measurement_time_write_ram s) (Measurement_time_update_pc s) (Measurement_pc_val_fhe_uint_noise s) (Measurement_imm_val_fhe_uint_noise s) (Measurement_ram_addr_read_noise s) (Measurement_ram_val_read_noise s) (Measurement_rd_val_fhe_uint_noise s).

Definition set_Measurement_time_refresh_rd (s : Measurement) (x : Duration) : Measurement :=
  mk_Measurement (Measurement_total_cycle_time s) (Measurement_time_prepare_pc s) (Measurement_time_read_and_prepare_rom s) (Measurement_time_read_rom s) (Measurement_time_prepare_rom s) (Measurement_time_read_and_prepare_registers s) (Measurement_time_read_registers s) (Measurement_time_prepare_registers s) (Measurement_time_read_ram s) (Measurement_time_derive_ram_addr s) (Measurement_time_prepare_ram_addr s) (Measurement_time_prepare_ram_read_statefull s) (Measurement_time_update_registers s) (Measurement_time_evaluate_rd_ops s) (Measurement_time_blind_select_rd s) x (Measurement_time_write_rd s) (Measurement_time_update_ram s) (Measurement_time_ram_update_op_eval s) (Measurement_time_blind_select_ram_value s) (Measurement_time_refresh_ram_value s) (Measurement_time_write_ram s) (Measurement_time_update_pc s) (Measurement_pc_val_fhe_uint_noise s) (Measurement_imm_val_fhe_uint_noise s) (Measurement_ram_addr_read_noise s) (Measurement_ram_val_read_noise s) (Measurement_rd_val_fhe_uint_noise s).

Definition set_Measurement_time_write_rd (s : Measurement) (x : Duration) : Measurement :=
  mk_Measurement (Measurement_total_cycle_time s) (Measurement_time_prepare_pc s) (Measurement_time_read_and_prepare_rom s) (Measurement_time_read_rom s) (Measurement_time_prepare_rom s) (Measurement_time_read_and_prepare_registers s) (Measurement_time_read_registers s) (Measurement_time_prepare_registers s) (Measurement_time_read_ram s) (Measurement_time_derive_ram_addr s) (Measurement_time_prepare_ram_addr s) (Measurement_time_prepare_ram_read_statefull s) (Measurement_time_update_registers s) (Measurement_time_evaluate_rd_ops s) (Measurement_time_blind_select_rd s) (Measurement_time_refresh_rd s) x (Measurement_time_update_ram s) (Measurement_time_ram_update_op_eval s) (Measurement_time_blind_select_ram_value s) (Measurement_time_refresh_ram_value s) (Measurement_time_write_ram s) (Measurement_time_update_pc s) (Measurement_pc_val_fhe_uint_noise s) (Measurement_imm_val_fhe_uint_noise s) (Measurement_ram_addr_read_noise s) (Measurement_ram_val_read_noise s) (Measurement_rd_val_fhe_uint_noise s).

Definition set_Measurement_time_update_ram (s : Measurement) (x : Duration) : Measurement :=
  mk_Measurement (Measurement_total_cycle_time s) (Measurement_time_prepare_pc s) (Measurement_time_read_and_prepare_rom s) (Measurement_time_read_rom s) (Measurement_time_prepare_rom s) (Measurement_time_read_and_prepare_registers s) (Measurement_time_read_registers s) (Measurement_time_prepare_registers s) (Measurement_time_read_ram s) (Measurement_time_derive_ram_addr s) (Measurement_time_prepare_ram_addr s) (Measurement_time_prepare_ram_read_statefull s) (Measurement_time_update_registers s) (Measurement_time_evaluate_rd_ops s) (Measurement_time_blind_select_rd s) (Measurement_time_refresh_rd s) (Measurement_time_write_rd s) x (Measurement_time_ram_update_op_eval s) (Measurement_time_blind_select_ram_value s) (Measurement_time_refresh_ram_value s) (Measurement_time_write_ram s) (Measurement_time_update_pc s) (Measurement_pc_val_fhe_uint_noise s) (Measurement_imm_val_fhe_uint_noise s) (Measurement_ram_addr_read_noise s) (Measurement_ram_val_read_noise s) (Measurement_rd_val_fhe_uint_noise s).

Definition set_Measurement_time_ram_update_op_eval (s : Measurement) (x : Duration) : Measurement :=
  mk_Measurement (Measurement_total_cycle_time s) (Measurement_time_prepare_pc s) (Measurement_time_read_and_prepare_rom s) (Measurement_time_read_rom s) (Measurement_time_prepare_rom s) (Measurement_time_read_and_prepare_registers s) (Measurement_time_read_registers s) (Measurement_time_prepare_registers s) (Measurement_time_read_ram s) (Measurement_time_derive_ram_addr s) (Measurement_time_prepare_ram_addr s) (Measurement_time_prepare_ram_read_statefull s) (Measurement_time_update_registers s) (Measurement_time_evaluate_rd_ops s) (Measurement_time_blind_select_rd s) (Measurement_time_refresh_rd s) (Measurement_time_write_rd s) (Measurement_time_update_ram s) x (Measurement_time_blind_select_ram_value s) (Measurement_time_refresh_ram_value s) (Measurement_time_write_ram s) (Measurement_time_update_pc s) (Measurement_pc_val_fhe_uint_noise s) (Measurement_imm_val_fhe_uint_noise s) (Measurement_ram_addr_read_noise s) (Measurement_ram_val_read_noise s) (Measurement_rd_val_fhe_uint_noise s).

Definition set_Measurement_time_blind_select_ram_value (s : Measurement) (x : Duration) : Measurement :=
  mk_Measurement (Measurement_total_cycle_time s) (Measurement_time_prepare_pc s) (Measurement_time_read_and_prepare_rom s) (Measurement_time_read_rom s) (Measurement_time_prepare_rom s) (Measurement_time_read_and_prepare_registers s) (Measurement_time_read_registers s) (Measurement_time_prepare_registers s) (Measurement_time_read_ram s) (Measurement_time_derive_ram_addr s) (Measurement_time_prepare_ram_addr s) (Measurement_time_prepare_ram_read_statefull s) (Measurement_time_update_registers s) (Measurement_time_evaluate_rd_ops s) (Measurement_time_blind_select_rd s) (Measurement_time_refresh_rd s) (Measurement_time_write_rd s) (Measurement_time_update_ram s) (Measurement_time_ram_update_op_eval s) x (Measurement_time_refresh_ram_value s) (Measurement_time_write_ram s) (Measurement_time_update_pc s) (Measurement_pc_val_fhe_uint_noise s) (Measurement_imm_val_fhe_uint_noise s) (Measurement_ram_addr_read_noise s) (Measurement_ram_val_read_noise s) (Measurement_rd_val_fhe_uint_noise s).

Definition set_Measurement_time_refresh_ram_value (s : Measurement) (x : Duration) : Measurement :=
  mk_Measurement (Measurement_total_cycle_time s) (Measurement_time_prepare_pc s) (Measurement_time_read_and_prepare_rom s) (Measurement_time_read_rom s) (Measurement_time_prepare_rom s) (Measurement_time_read_and_prepare_registers s) (Measurement_time_read_registers s) (Measurement_time_prepare_registers s) (Measurement_time_read_ram s) (Measurement_time_derive_ram_addr s) (Measurement_time_prepare_ram_addr s) (Measurement_time_prepare_ram_read_statefull s) (Measurement_time_update_registers s) (Measurement_time_evaluate_rd_ops s) (Measurement_time_blind_select_rd s) (Measurement_time_refresh_rd s) (Measurement_time_write_rd s) (Measurement_time_update_ram s) (Measurement_time_ram_update_op_eval s) (Measurement_time_blind_select_ram_value s) x (Measurement_time_write_ram s) (Measurement_time_update_pc s) (Measurement_pc_val_fhe_uint_noise s) (Measurement_imm_val_fhe_uint_noise s) (Measurement_ram_addr_read_noise s) (Measurement_ram_val_read_noise s) (Measurement_rd_val_fhe_uint_noise s).

Definition set_Measurement_time_write_ram (s : Measurement) (x : Duration) : Measurement :=
  mk_Measurement (Measurement_total_cycle_time s) (Measurement_time_prepare_pc s) (Measurement_time_read_and_prepare_rom s) (Measurement_time_read_rom s) (Measurement_time_prepare_rom s) (Measurement_time_read_and_prepare_registers s) (Measurement_time_read_registers s) (Measurement_time_prepare_registers s) (Measurement_time_read_ram s) (Measurement_time_derive_ram_addr s) (Measurement_time_prepare_ram_addr s) (Measurement_time_prepare_ram_read_statefull s) (Measurement_time_update_registers s) (Measurement_time_evaluate_rd_ops s) (Measurement_time_blind_select_rd s) (Measurement_time_refresh_rd s) (Measurement_time_write_rd s) (Measurement_time_update_ram s) (Measurement_time_ram_update_op_eval s) (Measurement_time_blind_select_ram_value s) (Measurement_time_refresh_ram_value s) x (Measurement_time_update_pc s) (Measurement_pc_val_fhe_uint_noise s) (Measurement_imm_val_fhe_uint_noise s) (Measurement_ram_addr_read_noise s) (Measurement_ram_val_read_noise s) (Measurement_rd_val_fhe_uint_noise s).

Definition set_Measurement_time_update_pc (s : Measurement) (x : Duration) : Measurement :=
  mk_Measurement (Measurement_total_cycle_time s) (Measurement_time_prepare_pc s) (Measurement_time_read_and_prepare_rom s) (Measurement_time_read_rom s) (Measurement_time_prepare_rom s) (Measurement_time_read_and_prepare_registers s) (Measurement_time_read_registers s) (Measurement_time_prepare_registers s) (Measurement_time_read_ram s) (Measurement_time_derive_ram_addr s) (Measurement_time_prepare_ram_addr s) (Measurement_time_prepare_ram_read_statefull s) (Measurement_time_update_registers s) (Measurement_time_evaluate_rd_ops s) (Measurement_time_blind_select_rd s) (Measurement_time_refresh_rd s) (Measurement_time_write_rd s) (Measurement_time_update_ram s) (Measurement_time_ram_update_op_eval s) (Measurement_time_blind_select_ram_value s) (Measurement_time_refresh_ram_value s) (Measurement_time_write_ram s) x (Measurement_pc_val_fhe_uint_noise s) (Measurement_imm_val_fhe_uint_noise s) (Measurement_ram_addr_read_noise s) (Measurement_ram_val_read_noise s) (Measurement_rd_val_fhe_uint_noise s).

Definition set_Measurement_pc_val_fhe_uint_noise (s : Measurement) (x : f64) : Measurement :=
  mk_Measurement (Measurement_total_cycle_time s) (Measurement_time_prepare_pc s) (Measurement_time_read_and_prepare_rom s) (Measurement_time_read_rom s) (Measurement_time_prepare_rom s) (Measurement_time_read_and_prepare_registers s) (Measurement_time_read_registers s) (Measurement_time_prepare_registers s) (Measurement_time_read_ram s) (Measurement_time_derive_ram_addr s) (Measurement_time_prepare_ram_addr s) (Measurement_time_prepare_ram_read_statefull s) (Measurement_time_update_registers s) (Measurement_time_evaluate_rd_ops s) (Measurement_time_blind_select_rd s) (Measurement_time_refresh_rd s) (Measurement_time_write_rd s) (Measurement_time_update_ram s) (Measurement_time_ram_update_op_eval s) (Measurement_time_blind_select_ram_value s) (Measurement_time_refresh_ram_value s) (Measurement_time_write_ram s) (Measurement_time_update_pc s) x (Measurement_imm_val_fhe_uint_noise s) (Measurement_ram_addr_read_noise s) (Measurement_ram_val_read_noise s) (Measurement_rd_val_fhe_uint_noise s).

Definition set_Measurement_imm_val_fhe_uint_noise (s : Measurement) (x : f64) : Measurement :=
  mk_Measurement (Measurement_total_cycle_time s) (Measurement_time_prepare_pc s) (Measurement_time_read_and_prepare_rom s) (Measurement_time_read_rom s) (Measurement_time_prepare_rom s) (Measurement_time_read_and_prepare_registers s) (Measurement_time_read_registers s) (Measurement_time_prepare_registers s) (Measurement_time_read_ram s) (Measurement_time_derive_ram_addr s) (Measurement_time_prepare_ram_addr s) (Measurement_time_prepare_ram_read_statefull s) (Measurement_time_update_registers s) (Measurement_time_evaluate_rd_ops s) (Measurement_time_blind_select_rd s) (Measurement_time_refresh_rd s) (Measurement_time_write_rd s) (Measurement_time_update_ram s) (Measurement_time_ram_update_op_eval s) (Measurement_time_blind_select_ram_value s) (Measurement_time_refresh_ram_value s) (Measurement_time_write_ram s) (Measurement_time_update_pc s) (Measurement_pc_val_fhe_uint_noise s) x (Measurement_ram_addr_read_noise s) (Measurement_ram_val_read_noise s) (Measurement_rd_val_fhe_uint_noise s).

Definition set_Measurement_ram_addr_read_noise (s : Measurement) (x : f64) : Measurement :=
  mk_Measurement (Measurement_total_cycle_time s) (Measurement_time_prepare_pc s) (Measurement_time_read_and_prepare_rom s) (Measurement_time_read_rom s) (Measurement_time_prepare_rom s) (Measurement_time_read_and_prepare_registers s) (Measurement_time_read_registers s) (Measurement_time_prepare_registers s) (Measurement_time_read_ram s) (Measurement_time_derive_ram_addr s) (Measurement_time_prepare_ram_addr s) (Measurement_time_prepare_ram_read_statefull s) (Measurement_time_update_registers s) (Measurement_time_evaluate_rd_ops s) (Measurement_time_blind_select_rd s) (Measurement_time_refresh_rd s) (Measurement_time_write_rd s) (Measurement_time_update_ram s) (Measurement_time_ram_update_op_eval s) (Measurement_time_blind_select_ram_value s) (Measurement_time_refresh_ram_value s) (Measurement_time_write_ram s) (Measurement_time_update_pc s) (Measurement_pc_val_fhe_uint_noise s) (Measurement_imm_val_fhe_uint_noise s) x (Measurement_ram_val_read_noise s) (Measurement_rd_val_fhe_uint_noise s).

Definition set_Measurement_ram_val_read_noise (s : Measurement) (x : f64) : Measurement :=
  mk_Measurement (Measurement_total_cycle_time s) (Measurement_time_prepare_pc s) (Measurement_time_read_and_prepare_rom s) (Measurement_time_read_rom s) (Measurement_time_prepare_rom s) (Measurement_time_read_and_prepare_registers s) (Measurement_time_read_registers s) (Measurement_time_prepare_registers s) (Measurement_time_read_ram s) (Measurement_time_derive_ram_addr s) (Measurement_time_prepare_ram_addr s) (Measurement_time_prepare_ram_read_statefull s) (Measurement_time_update_registers s) (Measurement_time_evaluate_rd_ops s) (Measurement_time_blind_select_rd s) (Measurement_time_refresh_rd s) (Measurement_time_write_rd s) (Measurement_time_update_ram s) (Measurement_time_ram_update_op_eval s) (Measurement_time_blind_select_ram_value s) (Measurement_time_refresh_ram_value s) (Measurement_time_write_ram s) (Measurement_time_update_pc s) (Measurement_pc_val_fhe_uint_noise s) (Measurement_imm_val_fhe_uint_noise s) (Measurement_ram_addr_read_noise s) x (Measurement_rd_val_fhe_uint_noise s).

Definition set_Measurement_rd_val_fhe_uint_noise (s : Measurement) (x : f64) : Measurement :=
  mk_Measurement (Measurement_total_cycle_time s) (Measurement_time_prepare_pc s) (Measurement_time_read_and_prepare_rom s) (Measurement_time_read_rom s) (Measurement_time_prepare_rom s) (Measurement_time_read_and_prepare_registers s) (Measurement_time_read_registers s) (Measurement_time_prepare_registers s) (Measurement_time_read_ram s) (Measurement_time_derive_ram_addr s) (Measurement_time_prepare_ram_addr s) (Measurement_time_prepare_ram_read_statefull s) (Measurement_time_update_registers s) (Measurement_time_evaluate_rd_ops s) (Measurement_time_blind_select_rd s) (Measurement_time_refresh_rd s) (Measurement_time_write_rd s) (Measurement_time_update_ram s) (Measurement_time_ram_update_op_eval s) (Measurement_time_blind_select_ram_value s) (Measurement_time_refresh_ram_value s) (Measurement_time_write_ram s) (Measurement_time_update_pc s) (Measurement_pc_val_fhe_uint_noise s) (Measurement_imm_val_fhe_uint_noise s) (Measurement_ram_addr_read_noise s) (Measurement_ram_val_read_noise s) x.

(** fhevm/src/measurements.rs:3-5 *)
Record Measurements := mk_Measurements {
  Measurements_cycle_measurements : (list Measurement) }.

Definition set_Measurements_cycle_measurements (s : Measurements) (x : (list Measurement)) : Measurements :=
  mk_Measurements x.

(** fhevm/src/measurements.rs:8-11 *)
Definition measurements_average_time (p : Rust.profile) (times : (list Duration)) : option Duration :=
  t1 <- RustParams.sum_durations (map (fun c => c) times) ;;
  let total_time : Duration := t1 in
  t2 <- RustParams.div_duration total_time (Rust.cast Rust.U32 (Rust.len times)) ;;
  Some t2.

(** fhevm/src/measurements.rs:14-18 *)
Definition Measurements_new (p : Rust.profile)  : option Measurements :=
  Some (mk_Measurements []).

(** fhevm/src/measurements.rs:21-28 *)
Definition Measurements_average_cycle_time (p : Rust.profile) (self : Measurements) : option Duration :=
  t1 <- RustParams.sum_durations (map (fun measurement => (Measurement_total_cycle_time measurement)) (Measurements_cycle_measurements self)) ;;
  let total_cycle_time := t1 in
  t2 <- RustParams.div_duration total_cycle_time (Rust.cast Rust.U32 (Rust.len (Measurements_cycle_measurements self))) ;;
  Some t2.

(** fhevm/src/measurements.rs:31-38 *)
Definition Measurements_average_time_prepare_pc (p : Rust.profile) (self : Measurements) : option Duration :=
  t1 <- RustParams.sum_durations (map (fun measurement => (Measurement_time_prepare_pc measurement)) (Measurements_cycle_measurements self)) ;;
  let total_cycle_time := t1 in
  t2 <- RustParams.div_duration total_cycle_time (Rust.cast Rust.U32 (Rust.len (Measurements_cycle_measurements self))) ;;
  Some t2.

(** fhevm/src/measurements.rs:41-48 *)
Definition Measurements_average_time_read_and_prepare_rom (p : Rust.profile) (self : Measurements) : option Duration :=
  t1 <- RustParams.sum_durations (map (fun measurement => (Measurement_time_read_and_prepare_rom measurement)) (Measurements_cycle_measurements self)) ;;
  let total_cycle_time := t1 in
  t2 <- RustParams.div_duration total_cycle_time (Rust.cast Rust.U32 (Rust.len (Measurements_cycle_measurements self))) ;;
  Some t2.

(** fhevm/src/measurements.rs:51-58 *)
Definition Measurements_average_time_read_rom (p : Rust.profile) (self : Measurements) : option Duration :=
  t1 <- RustParams.sum_durations (map (fun measurement => (Measurement_time_read_rom measurement)) (Measurements_cycle_measurements self)) ;;
  let total_cycle_time := t1 in
  t2 <- RustParams.div_duration total_cycle_time (Rust.cast Rust.U32 (Rust.len (Measurements_cycle_measurements self))) ;;
  Some t2.

(** fhevm/src/measurements.rs:61-68 *)
Definition Measurements_average_time_prepare_rom (p : Rust.profile) (self : Measurements) : option Duration :=
  t1 <- RustParams.sum_durations (map (fun measurement => (Measurement_time_prepare_rom measurement)) (Measurements_cycle_measurements self)) ;;
  let total_cycle_time := t1 in
  t2 <- RustParams.div_duration total_cycle_time (Rust.cast Rust.U32 (Rust.len (Measurements_cycle_measurements self))) ;;
  Some t2.

(** fhevm/src/measurements.rs:71-78 *)
Definition Measurements_average_time_read_and_prepare_registers (p : Rust.profile) (self : Measurements) : option Duration :=
  t1 <- RustParams.sum_durations (map (fun measurement => (Measurement_time_read_and_prepare_registers measurement)) (Measurements_cycle_measurements self)) ;;
  let total_cycle_time := t1 in
  t2 <- RustParams.div_duration total_cycle_time (Rust.cast Rust.U32 (Rust.len (Measurements_cycle_measurements self))) ;;
  Some t2.

(** fhevm/src/measurements.rs:81-88 *)
Definition Measurements_average_time_read_registers (p : Rust.profile) (self : Measurements) : option Duration :=
  t1 <- RustParams.sum_durations (map (fun measurement => (Measurement_time_read_registers measurement)) (Measurements_cycle_measurements self)) ;;
  let total_cycle_time := t1 in
  t2 <- RustParams.div_duration total_cycle_time (Rust.cast Rust.U32 (Rust.len (Measurements_cycle_measurements self))) ;;
  Some t2.

(** fhevm/src/measurements.rs:91-98 *)
Definition Measurements_average_time_prepare_registers (p : Rust.profile) (self : Measurements) : option Duration :=
  t1 <- RustParams.sum_durations (map (fun measurement => (Measurement_time_prepare_registers measurement)) (Measurements_cycle_measurements self)) ;;
  let total_cycle_time := t1 in
  t2 <- RustParams.div_duration total_cycle_time (Rust.cast Rust.U32 (Rust.len (Measurements_cycle_measurements self))) ;;
  Some t2.

(** fhevm/src/measurements.rs:101-108 *)
Definition Measurements_average_time_read_ram (p : Rust.profile) (self : Measurements) : option Duration :=
  t1 <- RustParams.sum_durations (map (fun measurement => (Measurement_time_read_ram measurement)) (Measurements_cycle_measurements self)) ;;
  let total_cycle_time := t1 in
  t2 <- RustParams.div_duration total_cycle_time (Rust.cast Rust.U32 (Rust.len (Measurements_cycle_measurements self))) ;;
  Some t2.

(** fhevm/src/measurements.rs:111-118 *)
Definition Measurements_average_time_derive_ram_addr (p : Rust.profile) (self : Measurements) : option Duration :=
  t1 <- RustParams.sum_durations (map (fun measurement => (Measurement_time_derive_ram_addr measurement)) (Measurements_cycle_measurements self)) ;;
  let total_cycle_time := t1 in
  t2 <- RustParams.div_duration total_cycle_time (Rust.cast Rust.U32 (Rust.len (Measurements_cycle_measurements self))) ;;
  Some t2.

(** fhevm/src/measurements.rs:121-128 *)
Definition Measurements_average_time_prepare_ram_addr (p : Rust.profile) (self : Measurements) : option Duration :=
  t1 <- RustParams.sum_durations (map (fun measurement => (Measurement_time_prepare_ram_addr measurement)) (Measurements_cycle_measurements self)) ;;
  let total_cycle_time := t1 in
  t2 <- RustParams.div_duration total_cycle_time (Rust.cast Rust.U32 (Rust.len (Measurements_cycle_measurements self))) ;;
  Some t2.

(** fhevm/src/measurements.rs:131-138 *)
Definition Measurements_average_time_prepare_ram_read_statefull (p : Rust.profile) (self : Measurements) : option Duration :=
  t1 <- RustParams.sum_durations (map (fun measurement => (Measurement_time_prepare_ram_read_statefull measurement)) (Measurements_cycle_measurements self)) ;;
  let total_cycle_time := t1 in
  t2 <- RustParams.div_duration total_cycle_time (Rust.cast Rust.U32 (Rust.len (Measurements_cycle_measurements self))) ;;
  Some t2.

(** fhevm/src/measurements.rs:141-148 *)
Definition Measurements_average_time_update_registers (p : Rust.profile) (self : Measurements) : option Duration :=
  t1 <- RustParams.sum_durations (map (fun measurement => (Measurement_time_update_registers measurement)) (Measurements_cycle_measurements self)) ;;
  let total_cycle_time := t1 in
  t2 <- RustParams.div_duration total_cycle_time (Rust.cast Rust.U32 (Rust.len (Measurements_cycle_measurements self))) ;;
  Some t2.

(** fhevm/src/measurements.rs:151-158 *)
Definition Measurements_average_time_evaluate_rd_ops (p : Rust.profile) (self : Measurements) : option Duration :=
  t1 <- RustParams.sum_durations (map (fun measurement => (Measurement_time_evaluate_rd_ops measurement)) (Measurements_cycle_measurements self)) ;;
  let total_cycle_time := t1 in
  t2 <- RustParams.div_duration total_cycle_time (Rust.cast Rust.U32 (Rust.len (Measurements_cycle_measurements self))) ;;
  Some t2.

(** fhevm/src/measurements.rs:161-168 *)
Definition Measurements_average_time_blind_select_rd (p : Rust.profile) (self : Measurements) : option Duration :=
  t1 <- RustParams.sum_durations (map (fun measurement => (Measurement_time_blind_select_rd measurement)) (Measurements_cycle_measurements self)) ;;
  let total_cycle_time := t1 in
  t2 <- RustParams.div_duration total_cycle_time (Rust.cast Rust.U32 (Rust.len (Measurements_cycle_measurements self))) ;;
  Some t2.

(** fhevm/src/measurements.rs:171-178 *)
Definition Measurements_average_time_refresh_rd (p : Rust.profile) (self : Measurements) : option Duration :=
  t1 <- RustParams.sum_durations (map (fun measurement => (Measurement_time_refresh_rd measurement)) (Measurements_cycle_measurements self)) ;;
  let total_cycle_time := t1 in
  t2 <- RustParams.div_duration total_cycle_time (Rust.cast Rust.U32 (Rust.len (Measurements_cycle_measurements self))) ;;
  Some t2.

(** fhevm/src/measurements.rs:181-188 *)
Definition Measurements_average_time_write_rd (p : Rust.profile) (self : Measurements) : option Duration :=
  t1 <- RustParams.sum_durations (map (fun measurement => (Measurement_time_write_rd measurement)) (Measurements_cycle_measurements self)) ;;
  let total_cycle_time := t1 in
  t2 <- RustParams.div_duration total_cycle_time (Rust.cast Rust.U32 (Rust.len (Measurements_cycle_measurements self))) ;;
  Some t2.

(** fhevm/src/measurements.rs:191-198 *)
Definition Measurements_average_time_update_ram (p : Rust.profile) (self : Measurements) : option Duration :=
  t1 <- RustParams.sum_durations (map (fun measurement => (Measurement_time_update_ram measurement)) (Measurements_cycle_measurements self)) ;;
  let total_cycle_time := t1 in
  t2 <- RustParams.div_duration total_cycle_time (Rust.cast Rust.U32 (Rust.len (Measurements_cycle_measurements self))) ;;
  Some t2.

(** fhevm/src/measurements.rs:201-208 *)
Definition Measurements_average_time_ram_update_op_eval (p : Rust.profile) (self : Measurements) : option Duration :=
  t1 <- RustParams.sum_durations (map (fun measurement => (Measurement_time_ram_update_op_eval measurement)) (Measurements_cycle_measurements self)) ;;
  let total_cycle_time := t1 in
  t2 <- RustParams.div_duration total_cycle_time (Rust.cast Rust.U32 (Rust.len (Measurements_cycle_measurements self))) ;;
  Some t2.

(** fhevm/src/measurements.rs:211-218 *)
Definition Measurements_average_time_blind_select_ram_value (p : Rust.profile) (self : Measurements) : option Duration :=
  t1 <- RustParams.sum_durations (map (fun measurement => (Measurement_time_blind_select_ram_value measurement)) (Measurements_cycle_measurements self)) ;;
  let total_cycle_time := t1 in
  t2 <- RustParams.div_duration total_cycle_time (Rust.cast Rust.U32 (Rust.len (Measurements_cycle_measurements self))) ;;
  Some t2.

(** fhevm/src/measurements.rs:221-228 *)
Definition Measurements_average_time_refresh_ram_value (p : Rust.profile) (self : Measurements) : option Duration :=
  t1 <- RustParams.sum_durations (map (fun measurement => (Measurement_time_refresh_ram_value measurement)) (Measurements_cycle_measurements self)) ;;
  let total_cycle_time := t1 in
  t2 <- RustParams.div_duration total_cycle_time (Rust.cast Rust.U32 (Rust.len (Measurements_cycle_measurements self))) ;;
  Some t2.

(** fhevm/src/measurements.rs:231-238 *)
Definition Measurements_average_time_write_ram (p : Rust.profile) (self : Measurements) : option Duration :=
  t1 <- RustParams.sum_durations (map (fun measurement => (Measurement_time_write_ram measurement)) (Measurements_cycle_measurements self)) ;;
  let total_cycle_time := t1 in
  t2 <- RustParams.div_duration total_cycle_time (Rust.cast Rust.U32 (Rust.len (Measurements_cycle_measurements self))) ;;
  Some t2.

(** fhevm/src/measurements.rs:241-248 *)
Definition Measurements_average_time_update_pc (p : Rust.profile) (self : Measurements) : option Duration :=
  t1 <- RustParams.sum_durations (map (fun measurement => (Measurement_time_update_pc measurement)) (Measurements_cycle_measurements self)) ;;
  let total_cycle_time := t1 in
  t2 <- RustParams.div_duration total_cycle_time (Rust.cast Rust.U32 (Rust.len (Measurements_cycle_measurements self))) ;;
  Some t2.

(** fhevm/src/measurements.rs:251-256 *)
Definition Measurements_get_pc_val_fhe_uint_noise_list (p : Rust.profile) (self : Measurements) : option (list f64) :=
  Some (map (fun measurement => (Measurement_pc_val_fhe_uint_noise measurement)) (Measurements_cycle_measurements self)).

(** fhevm/src/measurements.rs:259-264 *)
Definition Measurements_get_imm_val_fhe_uint_noise_list (p : Rust.profile) (self : Measurements) : option (list f64) :=
  Some (map (fun measurement => (Measurement_imm_val_fhe_uint_noise measurement)) (Measurements_cycle_measurements self)).

(** fhevm/src/measurements.rs:267-272 *)
Definition Measurements_get_ram_addr_read_noise_list (p : Rust.profile) (self : Measurements) : option (list f64) :=
  Some (map (fun measurement => (Measurement_ram_addr_read_noise measurement)) (Measurements_cycle_measurements self)).

(** fhevm/src/measurements.rs:275-280 *)
Definition Measurements_get_ram_val_read_noise_list (p : Rust.profile) (self : Measurements) : option (list f64) :=
  Some (map (fun measurement => (Measurement_ram_val_read_noise measurement)) (Measurements_cycle_measurements self)).

(** fhevm/src/measurements.rs:283-288 *)
Definition Measurements_get_rd_val_fhe_uint_noise_list (p : Rust.profile) (self : Measurements) : option (list f64) :=
  Some (map (fun measurement => (Measurement_rd_val_fhe_uint_noise measurement)) (Measurements_cycle_measurements self)).

(** fhevm/src/measurements.rs:341-387 *)
Definition Measurement_new (p : Rust.profile)  : option Measurement :=
  Some (mk_Measurement (RustParams.from_secs (Rust.lit 0)) (RustParams.from_secs (Rust.lit 0)) (RustParams.from_secs (Rust.lit 0)) (RustParams.from_secs (Rust.lit 0)) (RustParams.from_secs (Rust.lit 0)) (RustParams.from_secs (Rust.lit 0)) (RustParams.from_secs (Rust.lit 0)) (RustParams.from_secs (Rust.lit 0)) (RustParams.from_secs (Rust.lit 0)) (RustParams.from_secs (Rust.lit 0)) (RustParams.from_secs (Rust.lit 0)) (RustParams.from_secs (Rust.lit 0)) (RustParams.from_secs (Rust.lit 0)) (RustParams.from_secs (Rust.lit 0)) (RustParams.from_secs (Rust.lit 0)) (RustParams.from_secs (Rust.lit 0)) (RustParams.from_secs (Rust.lit 0)) (RustParams.from_secs (Rust.lit 0)) (RustParams.from_secs (Rust.lit 0)) (RustParams.from_secs (Rust.lit 0)) (RustParams.from_secs (Rust.lit 0)) (RustParams.from_secs (Rust.lit 0)) (RustParams.from_secs (Rust.lit 0)) RustParams.zero64 RustParams.zero64 RustParams.zero64 RustParams.zero64 RustParams.zero64).
