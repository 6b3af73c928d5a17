(** * The FHE library, as the text of the repository calls it

    Generated by tools/gen_lib.py from its table of signatures.  Do not edit.
    The library (poulpy) is not in the repository; this record only says which
    operations there are and what they take.  An operation returns the new
    values of the arguments it borrows mutably, then its result; [None] is a
    panic. *)
Require Import ZArith List Bool.
From Verif Require Import Rust.
Local Notation u8 := (Rust.int Rust.U8).
Local Notation u32 := (Rust.int Rust.U32).
Local Notation u64 := (Rust.int Rust.U64).
Local Notation usize := (Rust.int Rust.USize).
Local Notation i64 := (Rust.int Rust.I64).

Record library := {
  Module : Type;
  Keys : Type;
  Scratch : Type;
  GLWE : Type;
  FheUint : Type;
  FheUintPrepared : Type;
  GLWEBlindRetriever : Type;
  GLWELayout : Type;
  GGLWELayout : Type;
  GGSWLayout : Type;
  GLWEPlaintext : Type;
  Secret : Type;
  Source : Type;
  Module_n : Module -> usize;
  Module_log_n : Module -> usize;
  Module_glwe_rotate_tmp_bytes : Module -> usize;
  Module_glwe_trace_tmp_bytes : Module -> GLWELayout -> GLWELayout -> GGLWELayout -> usize;
  Module_glwe_blind_rotation_tmp_bytes : Module -> GLWELayout -> GGSWLayout -> usize;
  Module_glwe_blind_retrieval_tmp_bytes : Module -> GLWELayout -> GGSWLayout -> usize;
  Module_glwe_normalize_tmp_bytes : Module -> usize;
  GLWEBlindRetriever_retrieve_tmp_bytes : Module -> GLWELayout -> GGSWLayout -> usize;
  GLWE_bytes_of_from_infos : GLWELayout -> usize;
  GLWE_glwe_layout : GLWE -> GLWELayout;
  FheUint_glwe_layout : FheUint -> GLWELayout;
  FheUintPrepared_ggsw_layout : FheUintPrepared -> GGSWLayout;
  GLWELayout_n : GLWELayout -> usize;
  Keys_automorphism_key_infos : Keys -> GGLWELayout;
  GLWE_alloc_from_infos : GLWELayout -> GLWE;
  GLWEBlindRetriever_alloc : GLWELayout -> usize -> GLWEBlindRetriever;
  Scratch_available : Scratch -> usize;
  Scratch_split_mut : Scratch -> usize -> usize -> option ((list Scratch) * Scratch);
  Scratch_take_glwe : Scratch -> GLWELayout -> option (GLWE * Scratch);
  Scratch_take_glwe_slice : Scratch -> usize -> GLWELayout -> option ((list GLWE) * Scratch);
  Scratch_take_glwe_plaintext : Scratch -> GLWELayout -> option (GLWEPlaintext * Scratch);
  Scratch_take_slice : Scratch -> usize -> option ((list i64) * Scratch);
  Module_glwe_rotate_inplace : Module -> i64 -> GLWE -> Scratch -> option GLWE;
  Module_glwe_trace : Module -> GLWE -> usize -> GLWE -> Keys -> Scratch -> option GLWE;
  Module_glwe_add_inplace : Module -> GLWE -> GLWE -> option GLWE;
  Module_glwe_sub_inplace : Module -> GLWE -> GLWE -> option GLWE;
  Module_glwe_normalize_inplace : Module -> GLWE -> Scratch -> option GLWE;
  Module_glwe_copy : Module -> GLWE -> GLWE -> option GLWE;
  Module_glwe_blind_rotation_inplace : Module -> GLWE -> FheUintPrepared -> bool -> usize -> usize -> usize -> Scratch -> option GLWE;
  Module_glwe_blind_retrieval_statefull : Module -> (list GLWE) -> FheUintPrepared -> usize -> usize -> Scratch -> option (list GLWE);
  Module_glwe_blind_retrieval_statefull_rev : Module -> (list GLWE) -> FheUintPrepared -> usize -> usize -> Scratch -> option (list GLWE);
  GLWEBlindRetriever_retrieve : GLWEBlindRetriever -> Module -> GLWE -> (list GLWE) -> FheUintPrepared -> usize -> Scratch -> option (GLWEBlindRetriever * GLWE);
  FheUint_pack : FheUint -> Module -> (list GLWE) -> Keys -> Scratch -> option FheUint;
  FheUint_get_bit_glwe : FheUint -> Module -> usize -> GLWE -> Keys -> Scratch -> option GLWE;
  GLWEPlaintext_encode_vec_i64 : GLWEPlaintext -> (list i64) -> u32 -> option GLWEPlaintext;
  GLWEPlaintext_decode_vec_i64 : GLWEPlaintext -> (list i64) -> u32 -> option (list i64);
  GLWE_encrypt_sk : GLWE -> Module -> GLWEPlaintext -> Secret -> Source -> Source -> Scratch -> option (GLWE * Source * Source);
  GLWE_decrypt : GLWE -> Module -> GLWEPlaintext -> Secret -> Scratch -> option GLWEPlaintext;
  u32_bit : u32 -> usize -> u8 }.
