(** * What the homomorphic tests call outside the repository

    Generated by tools/gen_ftests.py from its table of signatures.  Do not edit.
    A fourth record beside RustLib.v, RustEng.v and RustHost.v, with the same
    conventions. *)
Require Import ZArith List Bool.
From Verif Require Import Rust RustLib RustEng RustHost.
Local Notation u32 := (Rust.int Rust.U32).

Section Tests.
Variable L : library.
Variable E : engine L.
Variable H : host L E.
Local Notation Module := (RustLib.Module L).
Local Notation Keys := (RustLib.Keys L).
Local Notation Scratch := (RustLib.Scratch L).
Local Notation GLWE := (RustLib.GLWE L).
Local Notation FheUint := (RustLib.FheUint L).
Local Notation FheUintPrepared := (RustLib.FheUintPrepared L).
Local Notation GLWEBlindRetriever := (RustLib.GLWEBlindRetriever L).
Local Notation GLWELayout := (RustLib.GLWELayout L).
Local Notation GGLWELayout := (RustLib.GGLWELayout L).
Local Notation GGSWLayout := (RustLib.GGSWLayout L).
Local Notation GLWEPlaintext := (RustLib.GLWEPlaintext L).
Local Notation Secret := (RustLib.Secret L).
Local Notation Source := (RustLib.Source L).
Local Notation GGSWPrepared := (RustEng.GGSWPrepared E).
Local Notation GGSW := (RustEng.GGSW E).
Local Notation LWE := (RustEng.LWE E).
Local Notation CbtKey := (RustEng.CbtKey E).
Local Notation KsGlwe := (RustEng.KsGlwe E).
Local Notation KsLwe := (RustEng.KsLwe E).
Local Notation CryptographicParameters := (RustEng.CryptographicParameters E).
Local Notation ElfBytes := (RustHost.ElfBytes H).
Local Notation ScratchOwned := (RustHost.ScratchOwned H).
Local Notation GLWESecret := (RustHost.GLWESecret H).
Local Notation LWESecret := (RustHost.LWESecret H).
Local Notation VMKeys := (RustHost.VMKeys H).
Local Notation Degree := (RustHost.Degree H).
Local Notation Rank := (RustHost.Rank H).
Record tests := {
  Stats : Type;
  Real : Type;
  GLWESecret_rank : GLWESecret -> Rank;
  Source_next_u32 : Source -> option (Source * u32);
  FheUint_encrypt_sk : FheUint -> Module -> u32 -> Secret -> Source -> Source -> Scratch -> option (FheUint * Source * Source);
  FheUintPrepared_encrypt_sk : FheUintPrepared -> Module -> u32 -> Secret -> Source -> Source -> Scratch -> option (FheUintPrepared * Source * Source);
  FheUint_noise : FheUint -> Module -> u32 -> Secret -> Scratch -> option Stats;
  Stats_std : Stats -> Real;
  Real_log2 : Real -> Real;
  Real_lt : Real -> f64 -> bool }.
End Tests.
Arguments Stats {L E H}.
Arguments Real {L E H}.
Arguments GLWESecret_rank {L E H}.
Arguments Source_next_u32 {L E H}.
Arguments FheUint_encrypt_sk {L E H}.
Arguments FheUintPrepared_encrypt_sk {L E H}.
Arguments FheUint_noise {L E H}.
Arguments Stats_std {L E H}.
Arguments Real_log2 {L E H}.
Arguments Real_lt {L E H}.
