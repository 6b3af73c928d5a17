(** * The FHE library, as the text of the keys calls it

    Generated by tools/gen_keys.py from its table of signatures.  Do not edit.
    The library (poulpy) is not in the repository; this record only says which
    operations there are and what they take.  An operation returns the new
    values of the arguments it borrows mutably, then its result; [None] is a
    panic. *)
Require Import ZArith List Bool.
From Verif Require Import Rust RustParams.
Local Notation u8 := (Rust.int Rust.U8).
Local Notation u32 := (Rust.int Rust.U32).
Local Notation u64 := (Rust.int Rust.U64).
Local Notation usize := (Rust.int Rust.USize).
Local Notation i64 := (Rust.int Rust.I64).

Record library := {
  Scratch : Type;
  ScratchOwned : Type;
  Source : Type;
  GLWESecret : Type;
  LWESecret : Type;
  GLWEAutomorphismKey : Type;
  GLWEAutomorphismKeyPrepared : Type;
  BDDKey : Type;
  BDDKeyPrepared : Type;
  CircuitBootstrappingKeyPrepared : Type;
  GLWESwitchingKeyPrepared : Type;
  GLWEToLWEKeyPrepared : Type;
  GLWE_trace_galois_elements : Module -> (list i64);
  ScratchOwned_alloc : usize -> option ScratchOwned;
  ScratchOwned_borrow : ScratchOwned -> Scratch;
  GLWEAutomorphismKey_encrypt_sk_tmp_bytes : Module -> GGLWELayout -> usize;
  GLWEAutomorphismKey_alloc_from_infos : GGLWELayout -> GLWEAutomorphismKey;
  GLWEAutomorphismKey_encrypt_sk : GLWEAutomorphismKey -> Module -> i64 -> GLWESecret -> Source -> Source -> Scratch -> option (GLWEAutomorphismKey * Source * Source);
  GLWEAutomorphismKeyPrepared_alloc_from_infos : Module -> GGLWELayout -> GLWEAutomorphismKeyPrepared;
  GLWEAutomorphismKeyPrepared_prepare : GLWEAutomorphismKeyPrepared -> Module -> GLWEAutomorphismKey -> Scratch -> option GLWEAutomorphismKeyPrepared;
  Module_bdd_key_encrypt_sk_tmp_bytes : Module -> BDDKeyLayout -> usize;
  BDDKey_alloc_from_infos : BDDKeyLayout -> BDDKey;
  BDDKey_encrypt_sk : BDDKey -> Module -> LWESecret -> GLWESecret -> Source -> Source -> Scratch -> option (BDDKey * Source * Source);
  BDDKeyPrepared_alloc_from_infos : Module -> BDDKeyLayout -> BDDKeyPrepared;
  BDDKeyPrepared_prepare : BDDKeyPrepared -> Module -> BDDKey -> Scratch -> option BDDKeyPrepared;
  BDDKeyPrepared_cbt_infos : BDDKeyPrepared -> CircuitBootstrappingKeyLayout;
  BDDKeyPrepared_ks_glwe_infos : BDDKeyPrepared -> (option GLWESwitchingKeyLayout);
  BDDKeyPrepared_ks_lwe_infos : BDDKeyPrepared -> GLWEToLWEKeyLayout;
  BDDKeyPrepared_get_cbt_key : BDDKeyPrepared -> (CircuitBootstrappingKeyPrepared * (option GLWESwitchingKeyPrepared) * GLWEToLWEKeyPrepared);
  Entries_automorphism_key_infos : list (i64 * GLWEAutomorphismKeyPrepared) -> GGLWELayout;
  Entries_get_automorphism_key : list (i64 * GLWEAutomorphismKeyPrepared) -> i64 -> (option GLWEAutomorphismKeyPrepared) }.
