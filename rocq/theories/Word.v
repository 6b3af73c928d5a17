(** * Rust machine integers

    Fixed-width Rust integers are modelled by [Z]; a [u32] is a [Z] in
    [0, 2^32).  Each operator below is the Rust operator of the same name,
    with truncation written out.  Used by every model file. *)
Require Import ZArith List Bool.
Import ListNotations.
Open Scope Z_scope.

(** [x as u32] for a value already computed in unbounded arithmetic. *)
Definition u32 (x : Z) : Z := x mod 4294967296.
(** [x as u64] / a 64-bit [usize]. *)
Definition u64 (x : Z) : Z := x mod 18446744073709551616.
(** [x as i32] for a [u32] value [x]. *)
Definition i32 (x : Z) : Z := if x <? 2147483648 then x else x - 4294967296.
(** wrap an integer to the range of [i64]. *)
Definition i64 (x : Z) : Z :=
  let y := x mod 18446744073709551616 in
  if y <? 9223372036854775808 then y else y - 18446744073709551616.

(** [u32::wrapping_add], [wrapping_sub], [wrapping_mul]. *)
Definition wadd (a b : Z) : Z := u32 (a + b).
Definition wsub (a b : Z) : Z := u32 (a - b).
Definition wmul (a b : Z) : Z := u32 (a * b).
(** [u32 << k], [u32::wrapping_shl] with [k < 32]: bits shifted out are lost. *)
Definition shl32 (a k : Z) : Z := u32 (Z.shiftl a k).
(** [u32 >> k] with [k < 32]. *)
Definition shr32 (a k : Z) : Z := Z.shiftr a k.
(** [(a as i32 >> k) as u32]. *)
Definition sar32 (a k : Z) : Z := u32 (Z.shiftr (i32 a) k).
(** comparison results stored as [u32]. *)
Definition b2w (b : bool) : Z := if b then 1 else 0.

(** [usize::BITS - (n - 1).leading_zeros()]: number of bits of [n - 1].
    (fhevm/src/memory.rs:39,453; fhevm/src/interpreter.rs:180,181,736,740).
    Rust panics for [n = 0] when overflow checks are on; [None] here. *)
Definition bit_len_pred (n : Z) : option nat :=
  if n <=? 0 then None
  else Some (Z.to_nat (if n =? 1 then 0 else Z.log2 (n - 1) + 1)).

(** [a.div_ceil(b)] on [usize]; panics for [b = 0]. *)
Definition div_ceil (a b : nat) : option nat :=
  match b with
  | O => None
  | S b' => Some (Nat.div (a + b') b)
  end.

(** Indexed write in a vector; out-of-bounds panics. *)
Fixpoint set_nth {A} (l : list A) (n : nat) (x : A) : option (list A) :=
  match l, n with
  | [], _ => None
  | _ :: t, O => Some (x :: t)
  | h :: t, S n' =>
      match set_nth t n' x with
      | Some t' => Some (h :: t')
      | None => None
      end
  end.

(** Option bind. *)
Notation "'do' x <- e ; f" :=
  (match e with Some x => f | None => None end)
  (at level 200, x pattern, e at level 100, f at level 200, only parsing).
(** [assert!(b)]: continue when [b], panic ([None]) otherwise. *)
Notation "'assert' b ; f" :=
  (if b then f else None)
  (at level 200, b at level 100, f at level 200, only parsing).
