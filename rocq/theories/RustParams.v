(** * Names of libraries that fhevm/src/parameters.rs and measurements.rs use

    Used by the files [tools/gen_params.py] writes, beside Rust.v and RustIter.v.
    The layouts are those of poulpy-core and poulpy-schemes as the repository
    builds them: the newtypes [Degree], [Base2K], [TorusPrecision], [Rank],
    [Dnum] and [Dsize] hold a u32 and are that number here.  [Duration] is the
    one of the standard library.  No line of the repository is cited. *)
Require Import ZArith List Bool Floats.SpecFloat.
From Verif Require Import Rust.
Import ListNotations.
Open Scope Z_scope.
Local Notation u32 := (int U32).

(** [Module::new(n)], and [module.n()] as a usize *)
Record Module := mk_Module { Module_n : int U64 }.
Definition module_n (m : Module) : int USize := cast USize (Module_n m).

Record GLWELayout := mk_GLWELayout {
  GLWELayout_n : u32; GLWELayout_k : u32; GLWELayout_base2k : u32; GLWELayout_rank : u32 }.
Record GGSWLayout := mk_GGSWLayout {
  GGSWLayout_n : u32; GGSWLayout_k : u32; GGSWLayout_base2k : u32; GGSWLayout_rank : u32;
  GGSWLayout_dnum : u32; GGSWLayout_dsize : u32 }.
Record GGLWELayout := mk_GGLWELayout {
  GGLWELayout_n : u32; GGLWELayout_base2k : u32; GGLWELayout_k : u32; GGLWELayout_rank_in : u32;
  GGLWELayout_rank_out : u32; GGLWELayout_dnum : u32; GGLWELayout_dsize : u32 }.
Record BlindRotationKeyLayout := mk_BlindRotationKeyLayout {
  BlindRotationKeyLayout_n_glwe : u32; BlindRotationKeyLayout_n_lwe : u32; BlindRotationKeyLayout_base2k : u32;
  BlindRotationKeyLayout_k : u32; BlindRotationKeyLayout_dnum : u32; BlindRotationKeyLayout_rank : u32 }.
Record GLWEAutomorphismKeyLayout := mk_GLWEAutomorphismKeyLayout {
  GLWEAutomorphismKeyLayout_n : u32; GLWEAutomorphismKeyLayout_base2k : u32; GLWEAutomorphismKeyLayout_k : u32;
  GLWEAutomorphismKeyLayout_rank : u32; GLWEAutomorphismKeyLayout_dnum : u32; GLWEAutomorphismKeyLayout_dsize : u32 }.
Record GGLWEToGGSWKeyLayout := mk_GGLWEToGGSWKeyLayout {
  GGLWEToGGSWKeyLayout_n : u32; GGLWEToGGSWKeyLayout_base2k : u32; GGLWEToGGSWKeyLayout_k : u32;
  GGLWEToGGSWKeyLayout_rank : u32; GGLWEToGGSWKeyLayout_dnum : u32; GGLWEToGGSWKeyLayout_dsize : u32 }.
Record CircuitBootstrappingKeyLayout := mk_CircuitBootstrappingKeyLayout {
  CircuitBootstrappingKeyLayout_layout_brk : BlindRotationKeyLayout;
  CircuitBootstrappingKeyLayout_layout_atk : GLWEAutomorphismKeyLayout;
  CircuitBootstrappingKeyLayout_layout_tsk : GGLWEToGGSWKeyLayout }.
Record GLWESwitchingKeyLayout := mk_GLWESwitchingKeyLayout {
  GLWESwitchingKeyLayout_n : u32; GLWESwitchingKeyLayout_base2k : u32; GLWESwitchingKeyLayout_k : u32;
  GLWESwitchingKeyLayout_rank_in : u32; GLWESwitchingKeyLayout_rank_out : u32; GLWESwitchingKeyLayout_dnum : u32;
  GLWESwitchingKeyLayout_dsize : u32 }.
Record GLWEToLWEKeyLayout := mk_GLWEToLWEKeyLayout {
  GLWEToLWEKeyLayout_n : u32; GLWEToLWEKeyLayout_base2k : u32; GLWEToLWEKeyLayout_k : u32;
  GLWEToLWEKeyLayout_rank_in : u32; GLWEToLWEKeyLayout_dnum : u32 }.
Record BDDKeyLayout := mk_BDDKeyLayout {
  BDDKeyLayout_cbt : CircuitBootstrappingKeyLayout; BDDKeyLayout_ks_glwe : option GLWESwitchingKeyLayout;
  BDDKeyLayout_ks_lwe : GLWEToLWEKeyLayout }.

(** A [Duration] is a number of seconds below 2^64 and of nanoseconds below
    10^9; here the number of nanoseconds.  Addition panics beyond the range, the
    division by a u32 rounds down and panics for 0. *)
Definition Duration := Z.
Definition from_secs (s : int U64) : Duration := val s * 1000000000.
Definition add_duration (a b : Duration) : option Duration :=
  if (a + b) / 1000000000 <? 2 ^ 64 then Some (a + b) else None.
Definition sum_durations (l : list Duration) : option Duration :=
  for_each l (fun x s => add_duration s x) 0.
Definition div_duration (a : Duration) (n : u32) : option Duration :=
  if val n =? 0 then None else Some (a / val n).

Definition f64 := spec_float.
Definition zero64 : f64 := S754_zero false.
