(** * What the host calls outside the repository

    Generated by tools/gen_host.py from its tables.  Do not edit.
    A third record beside RustLib.v and RustEng.v, with the same conventions;
    the fields of the two records of the ELF parser that the text reads; the
    constants of the ELF format. *)
Require Import ZArith List Bool.
From Verif Require Import Rust RustLib RustEng.
Local Notation u8 := (Rust.int Rust.U8).
Local Notation u32 := (Rust.int Rust.U32).
Local Notation u64 := (Rust.int Rust.U64).
Local Notation usize := (Rust.int Rust.USize).
(** a floating-point literal: what stands before and after the point *)
Definition f64 : Type := Z * Z.

Record ProgramHeader := mk_ProgramHeader { ProgramHeader_p_type : u32; ProgramHeader_p_flags : u32; ProgramHeader_p_offset : u64; ProgramHeader_p_vaddr : u64; ProgramHeader_p_filesz : u64; ProgramHeader_p_memsz : u64 }.
Record SectionHeader := mk_SectionHeader { SectionHeader_sh_addr : u64; SectionHeader_sh_size : u64 }.
Definition abi_PT_LOAD : u32 := Rust.lit 1.
Definition abi_PF_X : u32 := Rust.lit 1.
Definition abi_PF_W : u32 := Rust.lit 2.
Definition abi_PF_R : u32 := Rust.lit 4.

Section Host.
Variable L : library.
Variable E : engine L.
Local Notation Module := (RustLib.Module L).
Local Notation Keys := (RustLib.Keys L).
Local Notation Scratch := (RustLib.Scratch L).
Local Notation GLWE := (RustLib.GLWE L).
Local Notation FheUint := (RustLib.FheUint L).
Local Notation FheUintPrepared := (RustLib.FheUintPrepared L).
Local Notation GLWEBlindRetriever := (RustLib.GLWEBlindRetriever L).
Local Notation GLWELayout := (RustLib.GLWELayout L).
Local Notation GGLWELayout := (RustLib.GGLWELayout L).
Local Notation GGSWLayout := (RustLib.GGSWLayout L).
Local Notation GLWEPlaintext := (RustLib.GLWEPlaintext L).
Local Notation Secret := (RustLib.Secret L).
Local Notation Source := (RustLib.Source L).
Local Notation GGSWPrepared := (RustEng.GGSWPrepared E).
Local Notation GGSW := (RustEng.GGSW E).
Local Notation LWE := (RustEng.LWE E).
Local Notation CbtKey := (RustEng.CbtKey E).
Local Notation KsGlwe := (RustEng.KsGlwe E).
Local Notation KsLwe := (RustEng.KsLwe E).
Local Notation CryptographicParameters := (RustEng.CryptographicParameters E).
Record host := {
  ElfBytes : Type;
  ScratchOwned : Type;
  GLWESecret : Type;
  LWESecret : Type;
  VMKeys : Type;
  Degree : Type;
  Rank : Type;
  ElfBytes_minimal_parse : (list u8) -> (option ElfBytes);
  ElfBytes_segments : ElfBytes -> (option (list ProgramHeader));
  ElfBytes_section_header_by_name : ElfBytes -> (list u8) -> (option (option SectionHeader));
  env_var : (list u8) -> (option (list u8));
  num_cpus_get_physical : usize;
  CryptographicParameters_new : CryptographicParameters;
  CryptographicParameters_n_glwe : CryptographicParameters -> Degree;
  CryptographicParameters_rank : CryptographicParameters -> Rank;
  CryptographicParameters_n_lwe : CryptographicParameters -> Degree;
  CryptographicParameters_lwe_block_size : CryptographicParameters -> usize;
  Source_new : (list u8) -> Source;
  ScratchOwned_alloc : usize -> option ScratchOwned;
  ScratchOwned_borrow : ScratchOwned -> Scratch;
  GLWESecret_alloc : Degree -> Rank -> GLWESecret;
  GLWESecret_fill_ternary_prob : GLWESecret -> f64 -> Source -> option (GLWESecret * Source);
  LWESecret_alloc : Degree -> LWESecret;
  LWESecret_fill_binary_block : LWESecret -> usize -> Source -> option (LWESecret * Source);
  Secret_alloc : Module -> Rank -> Secret;
  Secret_prepare : Secret -> Module -> GLWESecret -> option Secret;
  VMKeys_encrypt_sk : CryptographicParameters -> LWESecret -> GLWESecret -> Source -> Source -> option (Source * Source * VMKeys);
  Keys_alloc : CryptographicParameters -> Keys;
  Keys_prepare : Keys -> Module -> VMKeys -> Scratch -> option Keys }.
End Host.
Arguments ElfBytes {L E}.
Arguments ScratchOwned {L E}.
Arguments GLWESecret {L E}.
Arguments LWESecret {L E}.
Arguments VMKeys {L E}.
Arguments Degree {L E}.
Arguments Rank {L E}.
Arguments ElfBytes_minimal_parse {L E}.
Arguments ElfBytes_segments {L E}.
Arguments ElfBytes_section_header_by_name {L E}.
Arguments env_var {L E}.
Arguments num_cpus_get_physical {L E}.
Arguments CryptographicParameters_new {L E}.
Arguments CryptographicParameters_n_glwe {L E}.
Arguments CryptographicParameters_rank {L E}.
Arguments CryptographicParameters_n_lwe {L E}.
Arguments CryptographicParameters_lwe_block_size {L E}.
Arguments Source_new {L E}.
Arguments ScratchOwned_alloc {L E}.
Arguments ScratchOwned_borrow {L E}.
Arguments GLWESecret_alloc {L E}.
Arguments GLWESecret_fill_ternary_prob {L E}.
Arguments LWESecret_alloc {L E}.
Arguments LWESecret_fill_binary_block {L E}.
Arguments Secret_alloc {L E}.
Arguments Secret_prepare {L E}.
Arguments VMKeys_encrypt_sk {L E}.
Arguments Keys_alloc {L E}.
Arguments Keys_prepare {L E}.
