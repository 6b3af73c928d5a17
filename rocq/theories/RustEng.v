(** * The operations on encrypted words, as the text of the repository calls them

    Generated by tools/gen_eng.py from its table of signatures.  Do not edit.
    A second record beside RustLib.v, with the same conventions. *)
Require Import ZArith List Bool.
From Verif Require Import Rust RustLib.
Local Notation u32 := (Rust.int Rust.U32).
Local Notation usize := (Rust.int Rust.USize).

(** the tables of compiled circuits (fhevm/src/codegen) *)
Inductive Circuits := | codegen_lui | codegen_jalr | codegen_auipc | codegen_ram_offset | codegen_pc_update.

Section Engine.
Variable L : library.
Local Notation Module := (RustLib.Module L).
Local Notation Keys := (RustLib.Keys L).
Local Notation Scratch := (RustLib.Scratch L).
Local Notation GLWE := (RustLib.GLWE L).
Local Notation FheUint := (RustLib.FheUint L).
Local Notation FheUintPrepared := (RustLib.FheUintPrepared L).
Local Notation GLWEBlindRetriever := (RustLib.GLWEBlindRetriever L).
Local Notation GLWELayout := (RustLib.GLWELayout L).
Local Notation GGLWELayout := (RustLib.GGLWELayout L).
Local Notation GGSWLayout := (RustLib.GGSWLayout L).
Local Notation GLWEPlaintext := (RustLib.GLWEPlaintext L).
Local Notation Secret := (RustLib.Secret L).
Local Notation Source := (RustLib.Source L).
Record engine := {
  GGSWPrepared : Type;
  GGSW : Type;
  LWE : Type;
  CbtKey : Type;
  KsGlwe : Type;
  KsLwe : Type;
  CryptographicParameters : Type;
  CryptographicParameters_rom_infos : CryptographicParameters -> GLWELayout;
  CryptographicParameters_ram_infos : CryptographicParameters -> GLWELayout;
  CryptographicParameters_fhe_uint_infos : CryptographicParameters -> GLWELayout;
  CryptographicParameters_fhe_uint_prepared_infos : CryptographicParameters -> GGSWLayout;
  CryptographicParameters_module : CryptographicParameters -> Module;
  FheUint_alloc_from_infos : GLWELayout -> FheUint;
  FheUintPrepared_alloc_from_infos : Module -> GGSWLayout -> FheUintPrepared;
  FheUint_decrypt : FheUint -> Module -> Secret -> Scratch -> option u32;
  FheUintPrepared_decrypt : FheUintPrepared -> Module -> Secret -> Keys -> Scratch -> option u32;
  FheUintPrepared_get_bit : FheUintPrepared -> usize -> option GGSWPrepared;
  FheUintPrepared_put_bit : FheUintPrepared -> usize -> GGSWPrepared -> option FheUintPrepared;
  FheUintPrepared_get_bits : FheUintPrepared -> usize -> usize -> option (list GGSWPrepared);
  FheUintPrepared_put_bits : FheUintPrepared -> usize -> usize -> (list GGSWPrepared) -> option FheUintPrepared;
  GGSWPrepared_ggsw_layout : GGSWPrepared -> GGSWLayout;
  GGSWPrepared_zero : GGSWPrepared -> Module -> option GGSWPrepared;
  GGSWPrepared_prepare : GGSWPrepared -> Module -> GGSW -> Scratch -> option GGSWPrepared;
  Keys_get_cbt_key : Keys -> (CbtKey * KsGlwe * KsLwe);
  CbtKey_block_size : CbtKey -> usize;
  CbtKey_execute_to_constant : CbtKey -> Module -> GGSW -> LWE -> usize -> usize -> Scratch -> option GGSW;
  Module_fhe_uint_prepare_tmp_bytes : Module -> usize -> usize -> GGSWLayout -> GLWELayout -> Keys -> usize;
  Scratch_take_ggsw : Scratch -> GGSWLayout -> option (GGSW * Scratch);
  Scratch_take_lwe : Scratch -> GLWELayout -> option (LWE * Scratch);
  FheUint_get_bit_lwe : FheUint -> Module -> usize -> LWE -> KsGlwe -> KsLwe -> Scratch -> option LWE;
  FheUintPrepared_prepare_custom_multi_thread : FheUintPrepared -> usize -> Module -> FheUint -> usize -> usize -> Keys -> Scratch -> option FheUintPrepared;
  FheUint_identity_multi_thread : FheUint -> usize -> Module -> FheUintPrepared -> Keys -> Scratch -> option FheUint;
  Module_execute_bdd_circuit_multi_thread : Module -> usize -> (list GLWE) -> (option usize * (usize -> option GGSWPrepared)) -> Circuits -> Scratch -> option (list GLWE);
  FheUint_bdd_2w_to_1w_multi_thread : FheUint -> Circuits -> usize -> Module -> FheUintPrepared -> FheUintPrepared -> Keys -> Scratch -> option FheUint;
  FheUint_add_multi_thread : FheUint -> usize -> Module -> FheUintPrepared -> FheUintPrepared -> Keys -> Scratch -> option FheUint;
  FheUint_sub_multi_thread : FheUint -> usize -> Module -> FheUintPrepared -> FheUintPrepared -> Keys -> Scratch -> option FheUint;
  FheUint_sll_multi_thread : FheUint -> usize -> Module -> FheUintPrepared -> FheUintPrepared -> Keys -> Scratch -> option FheUint;
  FheUint_slt_multi_thread : FheUint -> usize -> Module -> FheUintPrepared -> FheUintPrepared -> Keys -> Scratch -> option FheUint;
  FheUint_sltu_multi_thread : FheUint -> usize -> Module -> FheUintPrepared -> FheUintPrepared -> Keys -> Scratch -> option FheUint;
  FheUint_xor_multi_thread : FheUint -> usize -> Module -> FheUintPrepared -> FheUintPrepared -> Keys -> Scratch -> option FheUint;
  FheUint_srl_multi_thread : FheUint -> usize -> Module -> FheUintPrepared -> FheUintPrepared -> Keys -> Scratch -> option FheUint;
  FheUint_sra_multi_thread : FheUint -> usize -> Module -> FheUintPrepared -> FheUintPrepared -> Keys -> Scratch -> option FheUint;
  FheUint_or_multi_thread : FheUint -> usize -> Module -> FheUintPrepared -> FheUintPrepared -> Keys -> Scratch -> option FheUint;
  FheUint_and_multi_thread : FheUint -> usize -> Module -> FheUintPrepared -> FheUintPrepared -> Keys -> Scratch -> option FheUint;
  Module_glwe_copy_1 : Module -> FheUint -> FheUint -> option FheUint;
  FheUint_zero_byte : FheUint -> Module -> usize -> Keys -> Scratch -> option FheUint;
  FheUint_sext : FheUint -> Module -> usize -> Keys -> Scratch -> option FheUint;
  FheUint_splice_u8 : FheUint -> Module -> usize -> usize -> FheUint -> FheUint -> Keys -> Scratch -> option FheUint;
  FheUint_splice_u16 : FheUint -> Module -> usize -> usize -> FheUint -> FheUint -> Keys -> Scratch -> option FheUint;
  Module_glwe_blind_selection : Module -> FheUint -> (list (usize * FheUint)) -> FheUintPrepared -> usize -> usize -> Scratch -> option FheUint }.
End Engine.
Arguments GGSWPrepared {L}.
Arguments GGSW {L}.
Arguments LWE {L}.
Arguments CbtKey {L}.
Arguments KsGlwe {L}.
Arguments KsLwe {L}.
Arguments CryptographicParameters {L}.
Arguments CryptographicParameters_rom_infos {L}.
Arguments CryptographicParameters_ram_infos {L}.
Arguments CryptographicParameters_fhe_uint_infos {L}.
Arguments CryptographicParameters_fhe_uint_prepared_infos {L}.
Arguments CryptographicParameters_module {L}.
Arguments FheUint_alloc_from_infos {L}.
Arguments FheUintPrepared_alloc_from_infos {L}.
Arguments FheUint_decrypt {L}.
Arguments FheUintPrepared_decrypt {L}.
Arguments FheUintPrepared_get_bit {L}.
Arguments FheUintPrepared_put_bit {L}.
Arguments FheUintPrepared_get_bits {L}.
Arguments FheUintPrepared_put_bits {L}.
Arguments GGSWPrepared_ggsw_layout {L}.
Arguments GGSWPrepared_zero {L}.
Arguments GGSWPrepared_prepare {L}.
Arguments Keys_get_cbt_key {L}.
Arguments CbtKey_block_size {L}.
Arguments CbtKey_execute_to_constant {L}.
Arguments Module_fhe_uint_prepare_tmp_bytes {L}.
Arguments Scratch_take_ggsw {L}.
Arguments Scratch_take_lwe {L}.
Arguments FheUint_get_bit_lwe {L}.
Arguments FheUintPrepared_prepare_custom_multi_thread {L}.
Arguments FheUint_identity_multi_thread {L}.
Arguments Module_execute_bdd_circuit_multi_thread {L}.
Arguments FheUint_bdd_2w_to_1w_multi_thread {L}.
Arguments FheUint_add_multi_thread {L}.
Arguments FheUint_sub_multi_thread {L}.
Arguments FheUint_sll_multi_thread {L}.
Arguments FheUint_slt_multi_thread {L}.
Arguments FheUint_sltu_multi_thread {L}.
Arguments FheUint_xor_multi_thread {L}.
Arguments FheUint_srl_multi_thread {L}.
Arguments FheUint_sra_multi_thread {L}.
Arguments FheUint_or_multi_thread {L}.
Arguments FheUint_and_multi_thread {L}.
Arguments Module_glwe_copy_1 {L}.
Arguments FheUint_zero_byte {L}.
Arguments FheUint_sext {L}.
Arguments FheUint_splice_u8 {L}.
Arguments FheUint_splice_u16 {L}.
Arguments Module_glwe_blind_selection {L}.
