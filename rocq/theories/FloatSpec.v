(** * Specification: binary32 numbers as integers

    Every finite binary32 number is an integer multiple of 2^-149.  This file
    says what the operations do to these integers: the exact result, a
    quotient of integers, is rounded to the nearest number with at most 24
    significant bits, ties to even; from 2^277 on (2^128 in units of 2^-149)
    the result is infinite. *)
Require Import ZArith Bool.
Open Scope Z_scope.

(** The integer nearest to n/d, ties to the even one. *)
Definition nearest (n d : Z) : Z :=
  let q := n / d in let r := n mod d in
  if 2 * r <? d then q
  else if 2 * r >? d then q + 1
  else if Z.even q then q else q + 1.

(** The number with at most 24 significant bits nearest to n/d (n >= 0, d > 0). *)
Definition rnd (n d : Z) : Z :=
  let k := Z.max 0 (Z.log2 (n / d) - 23) in
  nearest n (d * 2 ^ k) * 2 ^ k.

(** Numbers: the sign of zero is kept, as division by zero depends on it. *)
Inductive num :=
| NaN
| Inf (neg : bool)
| Fin (neg : bool) (v : Z).

Definition unit : Z := 2 ^ 149.
Definition limit : Z := 2 ^ 277.

Definition signed (neg : bool) (v : Z) : Z := if neg then - v else v.

(** A finite exact result of magnitude n/d. *)
Definition rounded (neg : bool) (n d : Z) : num :=
  let v := rnd n d in if v <? limit then Fin neg v else Inf neg.

Definition n_add (x y : num) : num :=
  match x, y with
  | NaN, _ | _, NaN => NaN
  | Inf a, Inf b => if Bool.eqb a b then Inf a else NaN
  | Inf a, _ | _, Inf a => Inf a
  | Fin a u, Fin b v =>
      let s := signed a u + signed b v in
      if s =? 0 then Fin (a && b) 0 else rounded (s <? 0) (Z.abs s) 1
  end.
Definition n_opp (x : num) : num :=
  match x with NaN => NaN | Inf a => Inf (negb a) | Fin a u => Fin (negb a) u end.
Definition n_sub (x y : num) : num := n_add x (n_opp y).
Definition n_mul (x y : num) : num :=
  match x, y with
  | NaN, _ | _, NaN => NaN
  | Inf a, Inf b => Inf (xorb a b)
  | Inf a, Fin b v | Fin b v, Inf a => if v =? 0 then NaN else Inf (xorb a b)
  | Fin a u, Fin b v => rounded (xorb a b) (u * v) unit
  end.
Definition n_div (x y : num) : num :=
  match x, y with
  | NaN, _ | _, NaN => NaN
  | Inf _, Inf _ => NaN
  | Inf a, Fin b _ => Inf (xorb a b)
  | Fin a _, Inf b => Fin (xorb a b) 0
  | Fin a u, Fin b v =>
      if v =? 0 then if u =? 0 then NaN else Inf (xorb a b)
      else rounded (xorb a b) (u * unit) v
  end.

(** x <= y and x < y; comparisons with NaN are false. *)
Definition n_le (x y : num) : bool :=
  match x, y with
  | NaN, _ | _, NaN => false
  | Inf a, Inf b => a || negb b
  | Inf a, Fin _ _ => a
  | Fin _ _, Inf b => negb b
  | Fin a u, Fin b v => signed a u <=? signed b v
  end.
Definition n_lt (x y : num) : bool :=
  match x, y with
  | NaN, _ | _, NaN => false
  | _, _ => negb (n_le y x)
  end.
