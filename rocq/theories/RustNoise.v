(** * Noise, as the text of the repository measures it

    Generated by tools/gen_noise.py from its table of signatures.  Do not edit.
    A second record beside RustLib.v, with the same conventions. *)
Require Import ZArith List Bool.
From Verif Require Import Rust RustLib.

Section Meter.
Variable L : library.
Local Notation Module := (RustLib.Module L).
Local Notation Keys := (RustLib.Keys L).
Local Notation Scratch := (RustLib.Scratch L).
Local Notation GLWE := (RustLib.GLWE L).
Local Notation FheUint := (RustLib.FheUint L).
Local Notation FheUintPrepared := (RustLib.FheUintPrepared L).
Local Notation GLWEBlindRetriever := (RustLib.GLWEBlindRetriever L).
Local Notation GLWELayout := (RustLib.GLWELayout L).
Local Notation GGLWELayout := (RustLib.GGLWELayout L).
Local Notation GGSWLayout := (RustLib.GGSWLayout L).
Local Notation GLWEPlaintext := (RustLib.GLWEPlaintext L).
Local Notation Secret := (RustLib.Secret L).
Local Notation Source := (RustLib.Source L).
Record meter := {
  f64 : Type;
  Stats : Type;
  f64_MIN : f64;
  f64_zero : f64;
  f64_max : f64 -> f64 -> f64;
  f64_log2 : f64 -> f64;
  Stats_max : Stats -> f64;
  GLWE_noise : GLWE -> Module -> GLWEPlaintext -> Secret -> Scratch -> option (GLWEPlaintext * Stats) }.
End Meter.
Arguments f64 {L}.
Arguments Stats {L}.
Arguments f64_MIN {L}.
Arguments f64_zero {L}.
Arguments f64_max {L}.
Arguments f64_log2 {L}.
Arguments Stats_max {L}.
Arguments GLWE_noise {L}.
