(** * Cryptographic parameters

    fhevm/src/parameters.rs: the constants, and the layouts of ciphertexts and keys that are
    computed from them.  A precision (`TorusPrecision`) is a number of bits, a base (`Base2K`) the
    bits of one digit.  The newtypes of the library are plain integers here. *)
Require Import ZArith List Bool.
From Verif Require Import Word.
Import ListNotations.
Open Scope Z_scope.

(** parameters.rs:65-89 (the module is its ring degree) *)
Record params := {
  p_n : Z; p_n_lwe : Z; p_block : Z;
  b_fhe : Z; b_brk : Z; b_atk : Z; b_tsk : Z; b_glwe : Z; b_lwe : Z;
  p_rank : Z; k_pt : Z; k_lwe : Z; k_prepared : Z; k_fhe : Z; k_rom : Z; k_ram : Z; k_evk : Z;
  k_ks_glwe : Z; k_ks_lwe : Z; k_pbs : Z }.

(** parameters.rs:40-63, 95-118 *)
Definition params_new : params :=
  {| p_n := 2 ^ 10; p_n_lwe := 679; p_block := 7;
     b_fhe := 15; b_brk := 15; b_atk := 15; b_tsk := 15; b_glwe := 13; b_lwe := 4;
     p_rank := 2; k_pt := 2; k_lwe := 16; k_prepared := 15 * 3; k_fhe := 15 * 2; k_rom := 15 * 2; k_ram := 15 * 2; k_evk := 15 * 3;
     k_ks_glwe := 27; k_ks_lwe := 16; k_pbs := 15 * 4 |}.

(** GLWELayout; GGSWLayout, GGLWELayout and the layouts of keys: all have a base, a precision and
    (not the plain ciphertexts) a number of digits.  `dsize` is 1 everywhere. *)
Record layout := Layout { l_n : Z; l_base : Z; l_k : Z; l_rank_in : Z; l_rank_out : Z; l_dnum : Z }.

(** `u32::div_ceil`; panics if the divisor is zero, as in Rust *)
Definition div_ceil (a b : Z) : option Z :=
  if b =? 0 then None else Some (a / b + (if a mod b =? 0 then 0 else 1)).

(** parameters.rs:122-138, 151-167 *)
Definition glwe_layout (p : params) (k : Z) : layout := Layout (p_n p) (b_fhe p) k (p_rank p) (p_rank p) 0.
(** parameters.rs:140-149 *)
Definition prepared_layout (p : params) : option layout :=
  do d <- div_ceil (k_fhe p) (b_fhe p) ; Some (Layout (p_n p) (b_fhe p) (k_prepared p) (p_rank p) (p_rank p) d).
(** parameters.rs:169-179 *)
Definition evk_layout (p : params) : option layout :=
  do d <- div_ceil (k_ram p) (b_fhe p) ; Some (Layout (p_n p) (b_fhe p) (k_evk p) (p_rank p) (p_rank p) d).
(** parameters.rs:267-303: the three parts of the key for circuit bootstrapping *)
Definition cbt_layout (p : params) (base : Z) : option layout :=
  do d <- div_ceil (k_prepared p) base ; Some (Layout (p_n p) base (k_pbs p) (p_rank p) (p_rank p) d).
Definition brk_layout (p : params) : option layout := cbt_layout p (b_brk p).
Definition atk_layout (p : params) : option layout := cbt_layout p (b_atk p).
Definition tsk_layout (p : params) : option layout := cbt_layout p (b_tsk p).
(** parameters.rs:305-315: the number of digits is written down, not computed *)
Definition ks_glwe_layout (p : params) : layout := Layout (p_n p) (b_glwe p) (k_ks_glwe p) (p_rank p) 1 2.
(** parameters.rs:317-325 *)
Definition ks_lwe_layout (p : params) : layout := Layout (p_n p) (b_lwe p) (k_ks_lwe p) 1 1 4.
