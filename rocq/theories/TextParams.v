(** * The cryptographic parameters, translated

    Generated by tools/gen_params.py from fhevm/src/parameters.rs.
    Do not edit.  The operators are those of Rust.v. *)
Require Import ZArith List Bool.
From Verif Require Import Rust.
From Verif Require Import RustIter.
From Verif Require Import RustParams.
Import ListNotations.
Open Scope Z_scope.
Local Notation u8 := (Rust.int Rust.U8).
Local Notation u16 := (Rust.int Rust.U16).
Local Notation u32 := (Rust.int Rust.U32).
Local Notation u64 := (Rust.int Rust.U64).
Local Notation usize := (Rust.int Rust.USize).
Local Notation i32 := (Rust.int Rust.I32).
Local Notation i64 := (Rust.int Rust.I64).


(** fhevm/src/parameters.rs:65-89 *)
Record CryptographicParameters := mk_CryptographicParameters {
  CryptographicParameters_module : Module;
  CryptographicParameters_n_lwe : usize;
  CryptographicParameters_lwe_block_size : usize;
  CryptographicParameters_base2k_fhe_uint : u32;
  CryptographicParameters_base2k_cbt_brk : u32;
  CryptographicParameters_base2k_cbt_atk : u32;
  CryptographicParameters_base2k_cbt_tsk : u32;
  CryptographicParameters_base2k_glwe_to_glwe_ksk : u32;
  CryptographicParameters_base2k_glwe_to_lwe_ksk : u32;
  CryptographicParameters_rank : u32;
  CryptographicParameters_k_pt : u32;
  CryptographicParameters_k_lwe : u32;
  CryptographicParameters_k_fhe_uint_prepared : u32;
  CryptographicParameters_k_fhe_uint : u32;
  CryptographicParameters_k_rom : u32;
  CryptographicParameters_k_ram : u32;
  CryptographicParameters_k_evk_ram : u32;
  CryptographicParameters_k_glwe_to_glwe_ksk : u32;
  CryptographicParameters_k_glwe_to_lwe_ksk : u32;
  CryptographicParameters_k_pbs : u32 }.

Definition set_CryptographicParameters_module (s : CryptographicParameters) (x : Module) : CryptographicParameters :=
  mk_CryptographicParameters x (CryptographicParameters_n_lwe s) (CryptographicParameters_lwe_block_size s) (CryptographicParameters_base2k_fhe_uint s) (CryptographicParameters_base2k_cbt_brk s) (CryptographicParameters_base2k_cbt_atk s) (CryptographicParameters_base2k_cbt_tsk s) (CryptographicParameters_base2k_glwe_to_glwe_ksk s) (CryptographicParameters_base2k_glwe_to_lwe_ksk s) (CryptographicParameters_rank s) (CryptographicParameters_k_pt s) (CryptographicParameters_k_lwe s) (CryptographicParameters_k_fhe_uint_prepared s) (CryptographicParameters_k_fhe_uint s) (CryptographicParameters_k_rom s) (CryptographicParameters_k_ram s) (CryptographicParameters_k_evk_ram s) (CryptographicParameters_k_glwe_to_glwe_ksk s) (CryptographicParameters_k_glwe_to_lwe_ksk s) (CryptographicParameters_k_pbs s).

Definition set_CryptographicParameters_n_lwe (s : CryptographicParameters) (x : usize) : CryptographicParameters :=
  mk_CryptographicParameters (CryptographicParameters_module s) x (CryptographicParameters_lwe_block_size s) (CryptographicParameters_base2k_fhe_uint s) (CryptographicParameters_base2k_cbt_brk s) (CryptographicParameters_base2k_cbt_atk s) (CryptographicParameters_base2k_cbt_tsk s) (CryptographicParameters_base2k_glwe_to_glwe_ksk s) (CryptographicParameters_base2k_glwe_to_lwe_ksk s) (CryptographicParameters_rank s) (CryptographicParameters_k_pt s) (CryptographicParameters_k_lwe s) (CryptographicParameters_k_fhe_uint_prepared s) (CryptographicParameters_k_fhe_uint s) (CryptographicParameters_k_rom s) (CryptographicParameters_k_ram s) (CryptographicParameters_k_evk_ram s) (CryptographicParameters_k_glwe_to_glwe_ksk s) (CryptographicParameters_k_glwe_to_lwe_ksk s) (CryptographicParameters_k_pbs s).

Definition set_CryptographicParameters_lwe_block_size (s : CryptographicParameters) (x : usize) : CryptographicParameters :=
  mk_CryptographicParameters (CryptographicParameters_module s) (CryptographicParameters_n_lwe s) x (CryptographicParameters_base2k_fhe_uint s) (CryptographicParameters_base2k_cbt_brk s) (CryptographicParameters_base2k_cbt_atk s) (CryptographicParameters_base2k_cbt_tsk s) (CryptographicParameters_base2k_glwe_to_glwe_ksk s) (CryptographicParameters_base2k_glwe_to_lwe_ksk s) (CryptographicParameters_rank s) (CryptographicParameters_k_pt s) (CryptographicParameters_k_lwe s) (CryptographicParameters_k_fhe_uint_prepared s) (CryptographicParameters_k_fhe_uint s) (CryptographicParameters_k_rom s) (CryptographicParameters_k_ram s) (CryptographicParameters_k_evk_ram s) (CryptographicParameters_k_glwe_to_glwe_ksk s) (CryptographicParameters_k_glwe_to_lwe_ksk s) (CryptographicParameters_k_pbs s).

Definition set_CryptographicParameters_base2k_fhe_uint (s : CryptographicParameters) (x : u32) : CryptographicParameters :=
  mk_CryptographicParameters (CryptographicParameters_module s) (CryptographicParameters_n_lwe s) (CryptographicParameters_lwe_block_size s) x (CryptographicParameters_base2k_cbt_brk s) (CryptographicParameters_base2k_cbt_atk s) (CryptographicParameters_base2k_cbt_tsk s) (CryptographicParameters_base2k_glwe_to_glwe_ksk s) (CryptographicParameters_base2k_glwe_to_lwe_ksk s) (CryptographicParameters_rank s) (CryptographicParameters_k_pt s) (CryptographicParameters_k_lwe s) (CryptographicParameters_k_fhe_uint_prepared s) (CryptographicParameters_k_fhe_uint s) (CryptographicParameters_k_rom s) (CryptographicParameters_k_ram s) (CryptographicParameters_k_evk_ram s) (CryptographicParameters_k_glwe_to_glwe_ksk s) (CryptographicParameters_k_glwe_to_lwe_ksk s) (CryptographicParameters_k_pbs s).

Definition set_CryptographicParameters_base2k_cbt_brk (s : CryptographicParameters) (x : u32) : CryptographicParameters :=
  mk_CryptographicParameters (CryptographicParameters_module s) (CryptographicParameters_n_lwe s) (CryptographicParameters_lwe_block_size s) (CryptographicParameters_base2k_fhe_uint s) x (CryptographicParameters_base2k_cbt_atk s) (CryptographicParameters_base2k_cbt_tsk s) (CryptographicParameters_base2k_glwe_to_glwe_ksk s) (CryptographicParameters_base2k_glwe_to_lwe_ksk s) (CryptographicParameters_rank s) (CryptographicParameters_k_pt s) (CryptographicParameters_k_lwe s) (CryptographicParameters_k_fhe_uint_prepared s) (CryptographicParameters_k_fhe_uint s) (CryptographicParameters_k_rom s) (CryptographicParameters_k_ram s) (CryptographicParameters_k_evk_ram s) (CryptographicParameters_k_glwe_to_glwe_ksk s) (CryptographicParameters_k_glwe_to_lwe_ksk s) (CryptographicParameters_k_pbs s).

Definition set_CryptographicParameters_base2k_cbt_atk (s : CryptographicParameters) (x : u32) : CryptographicParameters :=
  mk_CryptographicParameters (CryptographicParameters_module s) (CryptographicParameters_n_lwe s) (CryptographicParameters_lwe_block_size s) (CryptographicParameters_base2k_fhe_uint s) (CryptographicParameters_base2k_cbt_brk s) x (CryptographicParameters_base2k_cbt_tsk s) (CryptographicParameters_base2k_glwe_to_glwe_ksk s) (CryptographicParameters_base2k_glwe_to_lwe_ksk s) (CryptographicParameters_rank s) (CryptographicParameters_k_pt s) (CryptographicParameters_k_lwe s) (CryptographicParameters_k_fhe_uint_prepared s) (CryptographicParameters_k_fhe_uint s) (CryptographicParameters_k_rom s) (CryptographicParameters_k_ram s) (CryptographicParameters_k_evk_ram s) (CryptographicParameters_k_glwe_to_glwe_ksk s) (CryptographicParameters_k_glwe_to_lwe_ksk s) (CryptographicParameters_k_pbs s).

Definition set_CryptographicParameters_base2k_cbt_tsk (s : CryptographicParameters) (x : u32) : CryptographicParameters :=
  mk_CryptographicParameters (CryptographicParameters_module s) (CryptographicParameters_n_lwe s) (CryptographicParameters_lwe_block_size s) (CryptographicParameters_base2k_fhe_uint s) (CryptographicParameters_base2k_cbt_brk s) (CryptographicParameters_base2k_cbt_atk s) x (CryptographicParameters_base2k_glwe_to_glwe_ksk s) (CryptographicParameters_base2k_glwe_to_lwe_ksk s) (CryptographicParameters_rank s) (CryptographicParameters_k_pt s) (CryptographicParameters_k_lwe s) (CryptographicParameters_k_fhe_uint_prepared s) (CryptographicParameters_k_fhe_uint s) (CryptographicParameters_k_rom s) (CryptographicParameters_k_ram s) (CryptographicParameters_k_evk_ram s) (CryptographicParameters_k_glwe_to_glwe_ksk s) (CryptographicParameters_k_glwe_to_lwe_ksk s) (CryptographicParameters_k_pbs s).

Definition set_CryptographicParameters_base2k_glwe_to_glwe_ksk (s : CryptographicParameters) (x : u32) : CryptographicParameters :=
  mk_CryptographicParameters (CryptographicParameters_module s) (CryptographicParameters_n_lwe s) (CryptographicParameters_lwe_block_size s) (CryptographicParameters_base2k_fhe_uint s) (CryptographicParameters_base2k_cbt_brk s) (CryptographicParameters_base2k_cbt_atk s) (CryptographicParameters_base2k_cbt_tsk s) x (CryptographicParameters_base2k_glwe_to_lwe_ksk s) (CryptographicParameters_rank s) (CryptographicParameters_k_pt s) (CryptographicParameters_k_lwe s) (CryptographicParameters_k_fhe_uint_prepared s) (CryptographicParameters_k_fhe_uint s) (CryptographicParameters_k_rom s) (CryptographicParameters_k_ram s) (CryptographicParameters_k_evk_ram s) (CryptographicParameters_k_glwe_to_glwe_ksk s) (CryptographicParameters_k_glwe_to_lwe_ksk s) (CryptographicParameters_k_pbs s).

Definition set_CryptographicParameters_base2k_glwe_to_lwe_ksk (s : CryptographicParameters) (x : u32) : CryptographicParameters :=
  mk_CryptographicParameters (CryptographicParameters_module s) (CryptographicParameters_n_lwe s) (CryptographicParameters_lwe_block_size s) (CryptographicParameters_base2k_fhe_uint s) (CryptographicParameters_base2k_cbt_brk s) (CryptographicParameters_base2k_cbt_atk s) (CryptographicParameters_base2k_cbt_tsk s) (CryptographicParameters_base2k_glwe_to_glwe_ksk s) x (CryptographicParameters_rank s) (CryptographicParameters_k_pt s) (CryptographicParameters_k_lwe s) (CryptographicParameters_k_fhe_uint_prepared s) (CryptographicParameters_k_fhe_uint s) (CryptographicParameters_k_rom s) (CryptographicParameters_k_ram s) (CryptographicParameters_k_evk_ram s) (CryptographicParameters_k_glwe_to_glwe_ksk s) (CryptographicParameters_k_glwe_to_lwe_ksk s) (CryptographicParameters_k_pbs s).

Definition set_CryptographicParameters_rank (s : CryptographicParameters) (x : u32) : CryptographicParameters :=
  mk_CryptographicParameters (CryptographicParameters_module s) (CryptographicParameters_n_lwe s) (CryptographicParameters_lwe_block_size s) (CryptographicParameters_base2k_fhe_uint s) (CryptographicParameters_base2k_cbt_brk s) (CryptographicParameters_base2k_cbt_atk s) (CryptographicParameters_base2k_cbt_tsk s) (CryptographicParameters_base2k_glwe_to_glwe_ksk s) (CryptographicParameters_base2k_glwe_to_lwe_ksk s) x (CryptographicParameters_k_pt s) (CryptographicParameters_k_lwe s) (CryptographicParameters_k_fhe_uint_prepared s) (CryptographicParameters_k_fhe_uint s) (CryptographicParameters_k_rom s) (CryptographicParameters_k_ram s) (CryptographicParameters_k_evk_ram s) (CryptographicParameters_k_glwe_to_glwe_ksk s) (CryptographicParameters_k_glwe_to_lwe_ksk s) (CryptographicParameters_k_pbs s).

Definition set_CryptographicParameters_k_pt (s : CryptographicParameters) (x : u32) : CryptographicParameters :=
  mk_CryptographicParameters (CryptographicParameters_module s) (CryptographicParameters_n_lwe s) (CryptographicParameters_lwe_block_size s) (CryptographicParameters_base2k_fhe_uint s) (CryptographicParameters_base2k_cbt_brk s) (CryptographicParameters_base2k_cbt_atk s) (CryptographicParameters_base2k_cbt_tsk s) (CryptographicParameters_base2k_glwe_to_glwe_ksk s) (CryptographicParameters_base2k_glwe_to_lwe_ksk s) (CryptographicParameters_rank s) x (CryptographicParameters_k_lwe s) (CryptographicParameters_k_fhe_uint_prepared s) (CryptographicParameters_k_fhe_uint s) (CryptographicParameters_k_rom s) (CryptographicParameters_k_ram s) (CryptographicParameters_k_evk_ram s) (CryptographicParameters_k_glwe_to_glwe_ksk s) (CryptographicParameters_k_glwe_to_lwe_ksk s) (CryptographicParameters_k_pbs s).

Definition set_CryptographicParameters_k_lwe (s : CryptographicParameters) (x : u32) : CryptographicParameters :=
  mk_CryptographicParameters (CryptographicParameters_module s) (CryptographicParameters_n_lwe s) (CryptographicParameters_lwe_block_size s) (CryptographicParameters_base2k_fhe_uint s) (CryptographicParameters_base2k_cbt_brk s) (CryptographicParameters_base2k_cbt_atk s) (CryptographicParameters_base2k_cbt_tsk s) (CryptographicParameters_base2k_glwe_to_glwe_ksk s) (CryptographicParameters_base2k_glwe_to_lwe_ksk s) (CryptographicParameters_rank s) (CryptographicParameters_k_pt s) x (CryptographicParameters_k_fhe_uint_prepared s) (CryptographicParameters_k_fhe_uint s) (CryptographicParameters_k_rom s) (CryptographicParameters_k_ram s) (CryptographicParameters_k_evk_ram s) (CryptographicParameters_k_glwe_to_glwe_ksk s) (CryptographicParameters_k_glwe_to_lwe_ksk s) (CryptographicParameters_k_pbs s).

Definition set_CryptographicParameters_k_fhe_uint_prepared (s : CryptographicParameters) (x : u32) : CryptographicParameters :=
  mk_CryptographicParameters (CryptographicParameters_module s) (CryptographicParameters_n_lwe s) (CryptographicParameters_lwe_block_size s) (CryptographicParameters_base2k_fhe_uint s) (CryptographicParameters_base2k_cbt_brk s) (CryptographicParameters_base2k_cbt_atk s) (CryptographicParameters_base2k_cbt_tsk s) (CryptographicParameters_base2k_glwe_to_glwe_ksk s) (CryptographicParameters_base2k_glwe_to_lwe_ksk s) (CryptographicParameters_rank s) (CryptographicParameters_k_pt s) (CryptographicParameters_k_lwe s) x (CryptographicParameters_k_fhe_uint s) (CryptographicParameters_k_rom s) (CryptographicParameters_k_ram s) (CryptographicParameters_k_evk_ram s) (CryptographicParameters_k_glwe_to_glwe_ksk s) (CryptographicParameters_k_glwe_to_lwe_ksk s) (CryptographicParameters_k_pbs s).

Definition set_CryptographicParameters_k_fhe_uint (s : CryptographicParameters) (x : u32) : CryptographicParameters :=
  mk_CryptographicParameters (CryptographicParameters_module s) (CryptographicParameters_n_lwe s) (CryptographicParameters_lwe_block_size s) (CryptographicParameters_base2k_fhe_uint s) (CryptographicParameters_base2k_cbt_brk s) (CryptographicParameters_base2k_cbt_atk s) (CryptographicParameters_base2k_cbt_tsk s) (CryptographicParameters_base2k_glwe_to_glwe_ksk s) (CryptographicParameters_base2k_glwe_to_lwe_ksk s) (CryptographicParameters_rank s) (CryptographicParameters_k_pt s) (CryptographicParameters_k_lwe s) (CryptographicParameters_k_fhe_uint_prepared s) x (CryptographicParameters_k_rom s) (CryptographicParameters_k_ram s) (CryptographicParameters_k_evk_ram s) (CryptographicParameters_k_glwe_to_glwe_ksk s) (CryptographicParameters_k_glwe_to_lwe_ksk s) (CryptographicParameters_k_pbs s).

Definition set_CryptographicParameters_k_rom (s : CryptographicParameters) (x : u32) : CryptographicParameters :=
  mk_CryptographicParameters (CryptographicParameters_module s) (CryptographicParameters_n_lwe s) (CryptographicParameters_lwe_block_size s) (CryptographicParameters_base2k_fhe_uint s) (CryptographicParameters_base2k_cbt_brk s) (CryptographicParameters_base2k_cbt_atk s) (CryptographicParameters_base2k_cbt_tsk s) (CryptographicParameters_base2k_glwe_to_glwe_ksk s) (CryptographicParameters_base2k_glwe_to_lwe_ksk s) (CryptographicParameters_rank s) (CryptographicParameters_k_pt s) (CryptographicParameters_k_lwe s) (CryptographicParameters_k_fhe_uint_prepared s) (CryptographicParameters_k_fhe_uint s) x (CryptographicParameters_k_ram s) (CryptographicParameters_k_evk_ram s) (CryptographicParameters_k_glwe_to_glwe_ksk s) (CryptographicParameters_k_glwe_to_lwe_ksk s) (CryptographicParameters_k_pbs s).

Definition set_CryptographicParameters_k_ram (s : CryptographicParameters) (x : u32) : CryptographicParameters :=
  mk_CryptographicParameters (CryptographicParameters_module s) (CryptographicParameters_n_lwe s) (CryptographicParameters_lwe_block_size s) (CryptographicParameters_base2k_fhe_uint s) (CryptographicParameters_base2k_cbt_brk s) (CryptographicParameters_base2k_cbt_atk s) (CryptographicParameters_base2k_cbt_tsk s) (CryptographicParameters_base2k_glwe_to_glwe_ksk s) (CryptographicParameters_base2k_glwe_to_lwe_ksk s) (CryptographicParameters_rank s) (CryptographicParameters_k_pt s) (CryptographicParameters_k_lwe s) (CryptographicParameters_k_fhe_uint_prepared s) (CryptographicParameters_k_fhe_uint s) (CryptographicParameters_k_rom s) x (CryptographicParameters_k_evk_ram s) (CryptographicParameters_k_glwe_to_glwe_ksk s) (CryptographicParameters_k_glwe_to_lwe_ksk s) (CryptographicParameters_k_pbs s).

Definition set_CryptographicParameters_k_evk_ram (s : CryptographicParameters) (x : u32) : CryptographicParameters :=
  mk_CryptographicParameters (CryptographicParameters_module s) (CryptographicParameters_n_lwe s) (CryptographicParameters_lwe_block_size s) (CryptographicParameters_base2k_fhe_uint s) (CryptographicParameters_base2k_cbt_brk s) (CryptographicParameters_base2k_cbt_atk s) (CryptographicParameters_base2k_cbt_tsk s) (CryptographicParameters_base2k_glwe_to_glwe_ksk s) (CryptographicParameters_base2k_glwe_to_lwe_ksk s) (CryptographicParameters_rank s) (CryptographicParameters_k_pt s) (CryptographicParameters_k_lwe s) (CryptographicParameters_k_fhe_uint_prepared s) (CryptographicParameters_k_fhe_uint s) (CryptographicParameters_k_rom s) (CryptographicParameters_k_ram s) x (CryptographicParameters_k_glwe_to_glwe_ksk s) (CryptographicParameters_k_glwe_to_lwe_ksk s) (CryptographicParameters_k_pbs s).

Definition set_CryptographicParameters_k_glwe_to_glwe_ksk (s : CryptographicParameters) (x : u32) : CryptographicParameters :=
  mk_CryptographicParameters (CryptographicParameters_module s) (CryptographicParameters_n_lwe s) (CryptographicParameters_lwe_block_size s) (CryptographicParameters_base2k_fhe_uint s) (CryptographicParameters_base2k_cbt_brk s) (CryptographicParameters_base2k_cbt_atk s) (CryptographicParameters_base2k_cbt_tsk s) (CryptographicParameters_base2k_glwe_to_glwe_ksk s) (CryptographicParameters_base2k_glwe_to_lwe_ksk s) (CryptographicParameters_rank s) (CryptographicParameters_k_pt s) (CryptographicParameters_k_lwe s) (CryptographicParameters_k_fhe_uint_prepared s) (CryptographicParameters_k_fhe_uint s) (CryptographicParameters_k_rom s) (CryptographicParameters_k_ram s) (CryptographicParameters_k_evk_ram s) x (CryptographicParameters_k_glwe_to_lwe_ksk s) (CryptographicParameters_k_pbs s).

Definition set_CryptographicParameters_k_glwe_to_lwe_ksk (s : CryptographicParameters) (x : u32) : CryptographicParameters :=
  mk_CryptographicParameters (CryptographicParameters_module s) (CryptographicParameters_n_lwe s) (CryptographicParameters_lwe_block_size s) (CryptographicParameters_base2k_fhe_uint s) (CryptographicParameters_base2k_cbt_brk s) (CryptographicParameters_base2k_cbt_atk s) (CryptographicParameters_base2k_cbt_tsk s) (CryptographicParameters_base2k_glwe_to_glwe_ksk s) (CryptographicParameters_base2k_glwe_to_lwe_ksk s) (CryptographicParameters_rank s) (CryptographicParameters_k_pt s) (CryptographicParameters_k_lwe s) (CryptographicParameters_k_fhe_uint_prepared s) (CryptographicParameters_k_fhe_uint s) (CryptographicParameters_k_rom s) (CryptographicParameters_k_ram s) (CryptographicParameters_k_evk_ram s) (CryptographicParameters_k_glwe_to_glwe_ksk s) x (CryptographicParameters_k_pbs s).

Definition set_CryptographicParameters_k_pbs (s : CryptographicParameters) (x : u32) : CryptographicParameters :=
  mk_CryptographicParameters (CryptographicParameters_module s) (CryptographicParameters_n_lwe s) (CryptographicParameters_lwe_block_size s) (CryptographicParameters_base2k_fhe_uint s) (CryptographicParameters_base2k_cbt_brk s) (CryptographicParameters_base2k_cbt_atk s) (CryptographicParameters_base2k_cbt_tsk s) (CryptographicParameters_base2k_glwe_to_glwe_ksk s) (CryptographicParameters_base2k_glwe_to_lwe_ksk s) (CryptographicParameters_rank s) (CryptographicParameters_k_pt s) (CryptographicParameters_k_lwe s) (CryptographicParameters_k_fhe_uint_prepared s) (CryptographicParameters_k_fhe_uint s) (CryptographicParameters_k_rom s) (CryptographicParameters_k_ram s) (CryptographicParameters_k_evk_ram s) (CryptographicParameters_k_glwe_to_glwe_ksk s) (CryptographicParameters_k_glwe_to_lwe_ksk s) x.

(** fhevm/src/parameters.rs:40-40 *)
Definition parameters_LOGN_GLWE : u32 := Rust.lit 10.

(** fhevm/src/parameters.rs:41-41 *)
Definition parameters_N_GLWE : u32 := Rust.lit 1024.

(** fhevm/src/parameters.rs:42-42 *)
Definition parameters_N_LWE : u32 := Rust.lit 679.

(** fhevm/src/parameters.rs:43-43 *)
Definition parameters_K_LWE : u32 := Rust.lit 16.

(** fhevm/src/parameters.rs:44-44 *)
Definition parameters_LWE_BLOCK_SIZE : u32 := Rust.lit 7.

(** fhevm/src/parameters.rs:45-45 *)
Definition parameters_BASE2K_FHE_UINT : u32 := Rust.lit 15.

(** fhevm/src/parameters.rs:46-46 *)
Definition parameters_BASE2K_CBT_BRK : u32 := Rust.lit 15.

(** fhevm/src/parameters.rs:47-47 *)
Definition parameters_BASE2K_CBT_ATK : u32 := Rust.lit 15.

(** fhevm/src/parameters.rs:48-48 *)
Definition parameters_BASE2K_CBT_TSK : u32 := Rust.lit 15.

(** fhevm/src/parameters.rs:49-49 *)
Definition parameters_BASE2K_GLWE_TO_GLWE_KSK : u32 := Rust.lit 13.

(** fhevm/src/parameters.rs:50-50 *)
Definition parameters_BASE2K_GLWE_TO_LWE_KSK : u32 := Rust.lit 4.

(** fhevm/src/parameters.rs:51-51 *)
Definition parameters_RANK : u32 := Rust.lit 2.

(** fhevm/src/parameters.rs:52-52 *)
Definition parameters_K_GLWE_PT : u32 := Rust.lit 2.

(** fhevm/src/parameters.rs:54-54 *)
Definition parameters_K_ROM : u32 := Rust.lit 30.

(** fhevm/src/parameters.rs:55-55 *)
Definition parameters_K_RAM : u32 := Rust.lit 30.

(** fhevm/src/parameters.rs:56-56 *)
Definition parameters_K_FHE_UINT : u32 := Rust.lit 30.

(** fhevm/src/parameters.rs:58-58 *)
Definition parameters_K_EVK_RAM_READ : u32 := Rust.lit 45.

(** fhevm/src/parameters.rs:59-59 *)
Definition parameters_K_FHE_UINT_PREPARED : u32 := Rust.lit 45.

(** fhevm/src/parameters.rs:60-60 *)
Definition parameters_K_PBS : u32 := Rust.lit 60.

(** fhevm/src/parameters.rs:62-62 *)
Definition parameters_K_GLWE_TO_GLWE_KSK : usize := Rust.lit 27.

(** fhevm/src/parameters.rs:63-63 *)
Definition parameters_K_GLWE_TO_LWE_KSK : usize := Rust.lit 16.

(** fhevm/src/parameters.rs:95-118 *)
Definition CryptographicParameters_new (p : Rust.profile)  : option CryptographicParameters :=
  Some (mk_CryptographicParameters (RustParams.mk_Module (Rust.cast Rust.U64 parameters_N_GLWE)) (Rust.cast Rust.USize parameters_N_LWE) (Rust.cast Rust.USize parameters_LWE_BLOCK_SIZE) parameters_BASE2K_FHE_UINT parameters_BASE2K_CBT_BRK parameters_BASE2K_CBT_ATK parameters_BASE2K_CBT_TSK parameters_BASE2K_GLWE_TO_GLWE_KSK parameters_BASE2K_GLWE_TO_LWE_KSK parameters_RANK parameters_K_GLWE_PT parameters_K_LWE parameters_K_FHE_UINT_PREPARED parameters_K_FHE_UINT parameters_K_ROM parameters_K_RAM parameters_K_EVK_RAM_READ (Rust.cast Rust.U32 parameters_K_GLWE_TO_GLWE_KSK) (Rust.cast Rust.U32 parameters_K_GLWE_TO_LWE_KSK) parameters_K_PBS).

(** fhevm/src/parameters.rs:221-223 *)
Definition CryptographicParameters_k_pt_fn (p : Rust.profile) (self : CryptographicParameters) : option u32 :=
  Some (CryptographicParameters_k_pt self).

(** fhevm/src/parameters.rs:209-211 *)
Definition CryptographicParameters_base2k_fhe_uint_fn (p : Rust.profile) (self : CryptographicParameters) : option u32 :=
  Some (CryptographicParameters_base2k_fhe_uint self).

(** fhevm/src/parameters.rs:261-263 *)
Definition CryptographicParameters_rank_fn (p : Rust.profile) (self : CryptographicParameters) : option u32 :=
  Some (CryptographicParameters_rank self).

(** fhevm/src/parameters.rs:122-129 *)
Definition CryptographicParameters_glwe_pt_infos (p : Rust.profile) (self : CryptographicParameters) : option GLWELayout :=
  t1 <- CryptographicParameters_k_pt_fn p self ;;
  t2 <- CryptographicParameters_base2k_fhe_uint_fn p self ;;
  t3 <- CryptographicParameters_rank_fn p self ;;
  Some (mk_GLWELayout (Rust.cast Rust.U32 (RustParams.module_n (CryptographicParameters_module self))) t1 t2 t3).

(** fhevm/src/parameters.rs:229-231 *)
Definition CryptographicParameters_k_fhe_uint_fn (p : Rust.profile) (self : CryptographicParameters) : option u32 :=
  Some (CryptographicParameters_k_fhe_uint self).

(** fhevm/src/parameters.rs:131-138 *)
Definition CryptographicParameters_fhe_uint_infos (p : Rust.profile) (self : CryptographicParameters) : option GLWELayout :=
  t1 <- CryptographicParameters_k_fhe_uint_fn p self ;;
  t2 <- CryptographicParameters_base2k_fhe_uint_fn p self ;;
  t3 <- CryptographicParameters_rank_fn p self ;;
  Some (mk_GLWELayout (Rust.cast Rust.U32 (RustParams.module_n (CryptographicParameters_module self))) t1 t2 t3).

(** fhevm/src/parameters.rs:233-235 *)
Definition CryptographicParameters_k_fhe_uint_prepared_fn (p : Rust.profile) (self : CryptographicParameters) : option u32 :=
  Some (CryptographicParameters_k_fhe_uint_prepared self).

(** fhevm/src/parameters.rs:140-149 *)
Definition CryptographicParameters_fhe_uint_prepared_infos (p : Rust.profile) (self : CryptographicParameters) : option GGSWLayout :=
  t1 <- CryptographicParameters_k_fhe_uint_prepared_fn p self ;;
  t2 <- CryptographicParameters_base2k_fhe_uint_fn p self ;;
  t3 <- CryptographicParameters_rank_fn p self ;;
  t4 <- CryptographicParameters_k_fhe_uint_fn p self ;;
  t5 <- CryptographicParameters_base2k_fhe_uint_fn p self ;;
  t6 <- RustIter.div_ceil t4 t5 ;;
  Some (mk_GGSWLayout (Rust.cast Rust.U32 (RustParams.module_n (CryptographicParameters_module self))) t1 t2 t3 t6 (Rust.lit 1)).

(** fhevm/src/parameters.rs:225-227 *)
Definition CryptographicParameters_k_rom_fn (p : Rust.profile) (self : CryptographicParameters) : option u32 :=
  Some (CryptographicParameters_k_rom self).

(** fhevm/src/parameters.rs:151-158 *)
Definition CryptographicParameters_rom_infos (p : Rust.profile) (self : CryptographicParameters) : option GLWELayout :=
  t1 <- CryptographicParameters_k_rom_fn p self ;;
  t2 <- CryptographicParameters_base2k_fhe_uint_fn p self ;;
  t3 <- CryptographicParameters_rank_fn p self ;;
  Some (mk_GLWELayout (Rust.cast Rust.U32 (RustParams.module_n (CryptographicParameters_module self))) t1 t2 t3).

(** fhevm/src/parameters.rs:237-239 *)
Definition CryptographicParameters_k_ram_fn (p : Rust.profile) (self : CryptographicParameters) : option u32 :=
  Some (CryptographicParameters_k_ram self).

(** fhevm/src/parameters.rs:160-167 *)
Definition CryptographicParameters_ram_infos (p : Rust.profile) (self : CryptographicParameters) : option GLWELayout :=
  t1 <- CryptographicParameters_k_ram_fn p self ;;
  t2 <- CryptographicParameters_base2k_fhe_uint_fn p self ;;
  t3 <- CryptographicParameters_rank_fn p self ;;
  Some (mk_GLWELayout (Rust.cast Rust.U32 (RustParams.module_n (CryptographicParameters_module self))) t1 t2 t3).

(** fhevm/src/parameters.rs:241-243 *)
Definition CryptographicParameters_k_evk_ram_fn (p : Rust.profile) (self : CryptographicParameters) : option u32 :=
  Some (CryptographicParameters_k_evk_ram self).

(** fhevm/src/parameters.rs:169-179 *)
Definition CryptographicParameters_evk_ram_infos (p : Rust.profile) (self : CryptographicParameters) : option GGLWELayout :=
  t1 <- CryptographicParameters_base2k_fhe_uint_fn p self ;;
  t2 <- CryptographicParameters_k_evk_ram_fn p self ;;
  t3 <- CryptographicParameters_rank_fn p self ;;
  t4 <- CryptographicParameters_rank_fn p self ;;
  t5 <- CryptographicParameters_k_ram_fn p self ;;
  t6 <- CryptographicParameters_base2k_fhe_uint_fn p self ;;
  t7 <- RustIter.div_ceil t5 t6 ;;
  Some (mk_GGLWELayout (Rust.cast Rust.U32 (RustParams.module_n (CryptographicParameters_module self))) t1 t2 t3 t4 t7 (Rust.lit 1)).

(** fhevm/src/parameters.rs:181-183 *)
Definition CryptographicParameters_module_fn (p : Rust.profile) (self : CryptographicParameters) : option Module :=
  Some (CryptographicParameters_module self).

(** fhevm/src/parameters.rs:185-187 *)
Definition CryptographicParameters_n_lwe_fn (p : Rust.profile) (self : CryptographicParameters) : option u32 :=
  Some (Rust.cast Rust.U32 (CryptographicParameters_n_lwe self)).

(** fhevm/src/parameters.rs:189-191 *)
Definition CryptographicParameters_n_glwe (p : Rust.profile) (self : CryptographicParameters) : option u32 :=
  t1 <- CryptographicParameters_module_fn p self ;;
  Some (Rust.cast Rust.U32 (RustParams.module_n t1)).

(** fhevm/src/parameters.rs:193-195 *)
Definition CryptographicParameters_lwe_block_size_fn (p : Rust.profile) (self : CryptographicParameters) : option usize :=
  Some (CryptographicParameters_lwe_block_size self).

(** fhevm/src/parameters.rs:197-199 *)
Definition CryptographicParameters_base2k_cbt_brk_fn (p : Rust.profile) (self : CryptographicParameters) : option u32 :=
  Some (CryptographicParameters_base2k_cbt_brk self).

(** fhevm/src/parameters.rs:201-203 *)
Definition CryptographicParameters_base2k_cbt_atk_fn (p : Rust.profile) (self : CryptographicParameters) : option u32 :=
  Some (CryptographicParameters_base2k_cbt_atk self).

(** fhevm/src/parameters.rs:205-207 *)
Definition CryptographicParameters_base2k_cbt_tsk_fn (p : Rust.profile) (self : CryptographicParameters) : option u32 :=
  Some (CryptographicParameters_base2k_cbt_tsk self).

(** fhevm/src/parameters.rs:213-215 *)
Definition CryptographicParameters_base2k_glwe_to_glwe_ksk_fn (p : Rust.profile) (self : CryptographicParameters) : option u32 :=
  Some (CryptographicParameters_base2k_glwe_to_glwe_ksk self).

(** fhevm/src/parameters.rs:217-219 *)
Definition CryptographicParameters_base2k_glwe_to_lwe_ksk_fn (p : Rust.profile) (self : CryptographicParameters) : option u32 :=
  Some (CryptographicParameters_base2k_glwe_to_lwe_ksk self).

(** fhevm/src/parameters.rs:245-247 *)
Definition CryptographicParameters_k_pbs_fn (p : Rust.profile) (self : CryptographicParameters) : option u32 :=
  Some (CryptographicParameters_k_pbs self).

(** fhevm/src/parameters.rs:249-251 *)
Definition CryptographicParameters_k_lwe_fn (p : Rust.profile) (self : CryptographicParameters) : option u32 :=
  Some (CryptographicParameters_k_lwe self).

(** fhevm/src/parameters.rs:253-255 *)
Definition CryptographicParameters_k_glwe_to_glwe_ksk_fn (p : Rust.profile) (self : CryptographicParameters) : option u32 :=
  Some (CryptographicParameters_k_glwe_to_glwe_ksk self).

(** fhevm/src/parameters.rs:257-259 *)
Definition CryptographicParameters_k_glwe_to_lwe_ksk_fn (p : Rust.profile) (self : CryptographicParameters) : option u32 :=
  Some (CryptographicParameters_k_glwe_to_lwe_ksk self).

(** fhevm/src/parameters.rs:267-303 *)
Definition CryptographicParameters_cbt_key_layout (p : Rust.profile) (self : CryptographicParameters) : option CircuitBootstrappingKeyLayout :=
  t1 <- CryptographicParameters_base2k_cbt_brk_fn p self ;;
  t2 <- CryptographicParameters_k_pbs_fn p self ;;
  t3 <- CryptographicParameters_k_fhe_uint_prepared_fn p self ;;
  t4 <- CryptographicParameters_base2k_cbt_brk_fn p self ;;
  t5 <- RustIter.div_ceil t3 t4 ;;
  t6 <- CryptographicParameters_rank_fn p self ;;
  t7 <- CryptographicParameters_base2k_cbt_atk_fn p self ;;
  t8 <- CryptographicParameters_k_pbs_fn p self ;;
  t9 <- CryptographicParameters_rank_fn p self ;;
  t10 <- CryptographicParameters_k_fhe_uint_prepared_fn p self ;;
  t11 <- CryptographicParameters_base2k_cbt_atk_fn p self ;;
  t12 <- RustIter.div_ceil t10 t11 ;;
  t13 <- CryptographicParameters_base2k_cbt_tsk_fn p self ;;
  t14 <- CryptographicParameters_k_pbs_fn p self ;;
  t15 <- CryptographicParameters_rank_fn p self ;;
  t16 <- CryptographicParameters_k_fhe_uint_prepared_fn p self ;;
  t17 <- CryptographicParameters_base2k_cbt_tsk_fn p self ;;
  t18 <- RustIter.div_ceil t16 t17 ;;
  Some (mk_CircuitBootstrappingKeyLayout (mk_BlindRotationKeyLayout (Rust.cast Rust.U32 (RustParams.module_n (CryptographicParameters_module self))) (Rust.cast Rust.U32 (CryptographicParameters_n_lwe self)) t1 t2 t5 t6) (mk_GLWEAutomorphismKeyLayout (Rust.cast Rust.U32 (RustParams.module_n (CryptographicParameters_module self))) t7 t8 t9 t12 (Rust.lit 1)) (mk_GGLWEToGGSWKeyLayout (Rust.cast Rust.U32 (RustParams.module_n (CryptographicParameters_module self))) t13 t14 t15 t18 (Rust.lit 1))).

(** fhevm/src/parameters.rs:305-315 *)
Definition CryptographicParameters_glwe_to_glwe_key_layout (p : Rust.profile) (self : CryptographicParameters) : option GLWESwitchingKeyLayout :=
  t1 <- CryptographicParameters_base2k_glwe_to_glwe_ksk_fn p self ;;
  t2 <- CryptographicParameters_k_glwe_to_glwe_ksk_fn p self ;;
  t3 <- CryptographicParameters_rank_fn p self ;;
  Some (mk_GLWESwitchingKeyLayout (Rust.cast Rust.U32 (RustParams.module_n (CryptographicParameters_module self))) t1 t2 t3 (Rust.lit 1) (Rust.lit 2) (Rust.lit 1)).

(** fhevm/src/parameters.rs:317-325 *)
Definition CryptographicParameters_glwe_to_lwe_key_layout (p : Rust.profile) (self : CryptographicParameters) : option GLWEToLWEKeyLayout :=
  t1 <- CryptographicParameters_base2k_glwe_to_lwe_ksk_fn p self ;;
  t2 <- CryptographicParameters_k_glwe_to_lwe_ksk_fn p self ;;
  Some (mk_GLWEToLWEKeyLayout (Rust.cast Rust.U32 (RustParams.module_n (CryptographicParameters_module self))) t1 t2 (Rust.lit 1) (Rust.lit 4)).

(** fhevm/src/parameters.rs:327-333 *)
Definition CryptographicParameters_bdd_key_layout (p : Rust.profile) (self : CryptographicParameters) : option BDDKeyLayout :=
  t1 <- CryptographicParameters_cbt_key_layout p self ;;
  t2 <- CryptographicParameters_glwe_to_glwe_key_layout p self ;;
  t3 <- CryptographicParameters_glwe_to_lwe_key_layout p self ;;
  Some (mk_BDDKeyLayout t1 (Some t2) t3).
