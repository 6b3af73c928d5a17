(** * More operators of the Rust fragment: floating point, early returns

    Used by the files [tools/gen_guest.py] writes, beside Rust.v, RustIter.v and
    RustStr.v.  The meanings are those of the Rust reference and of the standard
    library's documentation; no line of the repository is cited. *)
Require Import ZArith List Bool.
From Coq Require Import Floats.SpecFloat.
From Verif Require Import Rust.
Import ListNotations.
Open Scope Z_scope.

(** f32: IEEE 754 binary32, rounding to nearest, ties to even; one NaN *)
Definition f32 := spec_float.
Definition fadd : f32 -> f32 -> f32 := SFadd 24 128.
Definition fsub : f32 -> f32 -> f32 := SFsub 24 128.
Definition fmul : f32 -> f32 -> f32 := SFmul 24 128.
Definition fdiv : f32 -> f32 -> f32 := SFdiv 24 128.
Definition fsqrt : f32 -> f32 := SFsqrt 24 128.
Definition fle : f32 -> f32 -> bool := SFleb.
Definition fgt (a b : f32) : bool := SFltb b a.
(** the literal [n/d], [d] a power of ten, rounded once: both are exact below 2^24 *)
Definition flit (n d : Z) : f32 := fdiv (binary_normalize 24 128 n 0 false) (binary_normalize 24 128 d 0 false).

(** [o.and_then(f)] *)
Definition and_then {A B} (o : option A) (f : A -> option (option B)) : option (option B) :=
  match o with
  | None => Some None
  | Some x => f x
  end.

(** [for x in a..b { .. return r; .. }]: the value returned, or the end of the loop *)
Fixpoint each_ret {A R} (l : list A) (f : A -> option (R + unit)) : option (R + unit) :=
  match l with
  | [] => Some (inr tt)
  | x :: r => y <- f x ;; match y with inl v => Some (inl v) | inr _ => each_ret r f end
  end.
Definition for_ret {t R} (a b : int t) (f : int t -> option (R + unit)) : option (R + unit) :=
  each_ret (counting (Z.to_nat (val b - val a)) (val a)) f.
