(** * What the guests' structures and computations should be

    Vocabulary for the properties of [Guests.v]: which values belong to a
    type, where the scalars of a structure lie, and the arithmetic a
    constant-product exchange is meant to perform, over unbounded integers. *)
Require Import ZArith List Bool.
Require Import Verif.Guests.
Import ListNotations.
Open Scope Z_scope.

(** [v] is a value of type [t]. *)
Fixpoint typed (w : nat) (t : ty) (v : value) : Prop :=
  match t, v with
  | TBool, VInt z => z = 0 \/ z = 1
  | TU8, VInt z => 0 <= z < 256
  | TU32, VInt z => 0 <= z < 4294967296
  | TUsize, VInt z => 0 <= z < 256 ^ Z.of_nat w
  | TArr n t', VSeq vs => length vs = n /\ Forall (typed w t') vs
  | TStruct fs, VSeq vs =>
      (fix go (l : list ty) (xs : list value) : Prop :=
         match l, xs with
         | [], [] => True
         | f :: r, x :: ys => typed w f x /\ go r ys
         | _, _ => False
         end) fs vs
  | _, _ => False
  end.

(** A type that does not mention a pointer-sized integer. *)
Fixpoint portable (t : ty) : bool :=
  match t with
  | TUsize => false
  | TArr _ t' => portable t'
  | TStruct fs => forallb portable fs
  | _ => true
  end.

(** The scalars of a type as (offset, width), from left to right, the value
    starting at [base]. *)
Fixpoint scalars (w base : nat) (t : ty) : list (nat * nat) :=
  match t with
  | TBool | TU8 => [(base, 1%nat)]
  | TU32 => [(base, 4%nat)]
  | TUsize => [(base, w)]
  | TArr n t' =>
      flat_map (fun i => scalars w (base + i * size w t') t') (seq 0 n)
  | TStruct fs =>
      (fix go (pos : nat) (l : list ty) : list (nat * nat) :=
         match l with
         | [] => []
         | f :: r =>
             let q := round_up pos (align w f) in
             scalars w (base + q) f ++ go (q + size w f)%nat r
         end) 0%nat fs
  end.

(** Consecutive pieces between [lo] and [hi], none reaching into the next. *)
Fixpoint apart (lo : nat) (l : list (nat * nat)) (hi : nat) : Prop :=
  match l with
  | [] => (lo <= hi)%nat
  | (o, n) :: r => (lo <= o)%nat /\ apart (o + n)%nat r hi
  end.

(** The integers from left to right in a value. *)
Fixpoint ints (v : value) : list Z :=
  match v with
  | VInt z => [z]
  | VSeq vs => flat_map ints vs
  end.

(** At each (offset, width) of [places], the bytes of the corresponding
    integer, least significant first. *)
Fixpoint at_scalars (l : list Z) (places : list (nat * nat)) (zs : list Z) : Prop :=
  match places, zs with
  | [], [] => True
  | (o, n) :: r, z :: ys => firstn n (skipn o l) = le n z /\ at_scalars l r ys
  | _, _ => False
  end.

(** ** Exchange *)
Definition is_u32 (x : Z) : Prop := 0 <= x < 4294967296.
Definition pool_ok (p : pool) : Prop := is_u32 (t0 p) /\ is_u32 (t1 p).
Definition trade_ok (t : trade) : Prop := is_u32 (amount t).
Definition account_ok (a : account) : Prop := is_u32 (t0_balance a) /\ is_u32 (t1_balance a).

(** The least integer not below [x / y]. *)
Definition ceil_div (x y : Z) : Z := - ((- x) / y).

(** The product a constant-product exchange keeps. *)
Definition product (p : pool) : Z := t0 p * t1 p.

(** A polynomial at a point, over the integers. *)
Fixpoint poly (cs : list Z) (x : Z) : Z :=
  match cs with
  | [] => 0
  | c :: r => c + x * poly r x
  end.
