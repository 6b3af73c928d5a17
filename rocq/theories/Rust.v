(** * The operators of the Rust fragment used by the translated functions

    [tools/gen_text.py] translates functions of the repository, read as text,
    into the Gallina of the [Text*.v] files; this file says what the operators
    of the translated text mean.  A Rust panic is [None].  It cites no line of
    the repository: the meanings are those of the Rust reference for a 64-bit
    target.

    Integers carry their type, so that Coq's type inference gives every
    unsuffixed literal the type Rust gives it, and a translation that mixed two
    types would be rejected. *)
Require Import ZArith List Bool.
Import ListNotations.
Open Scope Z_scope.

(** bind: a panic is passed on *)
Notation "x <- e ;; f" :=
  (match e with Some x => f | None => None end)
  (at level 61, e at next level, right associativity, only parsing).
Notation "' x <- e ;; f" :=
  (match e with Some x => f | None => None end)
  (at level 61, x pattern, e at next level, right associativity, only parsing).

(** the build profile *)
Record profile := { overflow_checks : bool; debug_assertions : bool }.

Inductive ity := U8 | U16 | U32 | U64 | USize | I32 | I64.
Inductive int (t : ity) : Type := Int (z : Z).
Arguments Int {t} z.
Definition val {t} (a : int t) : Z := match a with Int z => z end.

(** number of bits, number of values, smallest and largest value *)
Definition bits (t : ity) : Z :=
  match t with U8 => 8 | U16 => 16 | U32 | I32 => 32 | U64 | USize | I64 => 64 end.
Definition card (t : ity) : Z :=
  match t with
  | U8 => 256 | U16 => 65536 | U32 | I32 => 4294967296
  | U64 | USize | I64 => 18446744073709551616
  end.
Definition least (t : ity) : Z :=
  match t with I32 => -2147483648 | I64 => -9223372036854775808 | _ => 0 end.
Definition largest (t : ity) : Z :=
  match t with
  | U8 => 255 | U16 => 65535 | U32 => 4294967295 | U64 | USize => 18446744073709551615
  | I32 => 2147483647 | I64 => 9223372036854775807
  end.
Definition is_signed (t : ity) : bool := match t with I32 | I64 => true | _ => false end.

(** the value of type [t] congruent to [z] *)
Definition wrap (t : ity) (z : Z) : Z :=
  if is_signed t then
    let y := z mod card t in if y <=? largest t then y else y - card t
  else z mod card t.
Definition fits (t : ity) (z : Z) : bool := (least t <=? z) && (z <=? largest t).

(** a literal *)
Definition lit {t} (z : Z) : int t := Int z.
(** a result that may leave the range: with overflow checks a panic, without
    them wrap-around *)
Definition checked {t} (p : profile) (z : Z) : option (int t) :=
  if fits t z then Some (Int z)
  else if overflow_checks p then None else Some (Int (wrap t z)).

Definition add {t} (p : profile) (a b : int t) : option (int t) := checked p (val a + val b).
Definition sub {t} (p : profile) (a b : int t) : option (int t) := checked p (val a - val b).
Definition mul {t} (p : profile) (a b : int t) : option (int t) := checked p (val a * val b).
Definition neg {t} (p : profile) (a : int t) : option (int t) := checked p (- val a).
(** division truncates; a zero divisor panics, and so does [MIN / -1], in every
    profile *)
Definition div_ok {t} (a b : int t) : bool :=
  negb (val b =? 0) &&
  negb (is_signed t && (val a =? least t) && (val b =? -1)).
Definition div {t} (a b : int t) : option (int t) :=
  if div_ok a b then Some (Int (Z.quot (val a) (val b))) else None.
Definition rem {t} (a b : int t) : option (int t) :=
  if div_ok a b then Some (Int (Z.rem (val a) (val b))) else None.

Definition band {t} (a b : int t) : int t := Int (Z.land (val a) (val b)).
Definition bor {t} (a b : int t) : int t := Int (Z.lor (val a) (val b)).
Definition bxor {t} (a b : int t) : int t := Int (Z.lxor (val a) (val b)).
Definition bnot {t} (a : int t) : int t := Int (wrap t (Z.lnot (val a))).

(** the two operands of a shift may have different types; an amount outside the
    width panics with overflow checks and is reduced without them; the shift to
    the right keeps the sign *)
Definition amount {s} (t : ity) (p : profile) (k : int s) : option Z :=
  if (0 <=? val k) && (val k <? bits t) then Some (val k)
  else if overflow_checks p then None else Some (val k mod bits t).
Definition shl {t s} (p : profile) (a : int t) (k : int s) : option (int t) :=
  match amount t p k with Some n => Some (Int (wrap t (Z.shiftl (val a) n))) | None => None end.
Definition shr {t s} (p : profile) (a : int t) (k : int s) : option (int t) :=
  match amount t p k with Some n => Some (Int (Z.shiftr (val a) n)) | None => None end.

Definition wrapping_add {t} (a b : int t) : int t := Int (wrap t (val a + val b)).
Definition wrapping_sub {t} (a b : int t) : int t := Int (wrap t (val a - val b)).
Definition wrapping_mul {t} (a b : int t) : int t := Int (wrap t (val a * val b)).
Definition wrapping_shl {t} (a : int t) (k : int U32) : int t :=
  Int (wrap t (Z.shiftl (val a) (val k mod bits t))).
Definition wrapping_shr {t} (a : int t) (k : int U32) : int t :=
  Int (Z.shiftr (val a) (val k mod bits t)).
(** [checked_add(..).expect(..)] *)
Definition checked_add {t} (a b : int t) : option (int t) :=
  if fits t (val a + val b) then Some (Int (val a + val b)) else None.

Definition eq {t} (a b : int t) : bool := val a =? val b.
Definition ne {t} (a b : int t) : bool := negb (val a =? val b).
Definition lt {t} (a b : int t) : bool := val a <? val b.
Definition le {t} (a b : int t) : bool := val a <=? val b.
Definition gt {t} (a b : int t) : bool := val a >? val b.
Definition ge {t} (a b : int t) : bool := val a >=? val b.

(** [as]: keep the value when the target type contains the source type, wrap
    otherwise *)
Definition widens (s t : ity) : bool := (least t <=? least s) && (largest s <=? largest t).
Definition cast {s} (t : ity) (a : int s) : int t :=
  if widens s t then Int (val a) else Int (wrap t (val a)).

Definition cast_bool (t : ity) (b : bool) : int t := Int (if b then 1 else 0).

(** [T::MIN], [T::MAX], [T::BITS] *)
Definition min_of (t : ity) : int t := Int (least t).
Definition max_of (t : ity) : int t := Int (largest t).
Definition bits_of (t : ity) : int U32 := Int (bits t).

(** arrays, vectors and slices are lists *)
Definition len {A} (l : list A) : int USize := Int (Z.of_nat (length l)).
Definition index {A} (l : list A) (i : int USize) : option A := nth_error l (Z.to_nat (val i)).
Fixpoint replace {A} (l : list A) (n : nat) (x : A) : option (list A) :=
  match l, n with
  | [], _ => None
  | _ :: t, O => Some (x :: t)
  | h :: t, S m => match replace t m x with Some t' => Some (h :: t') | None => None end
  end.
Definition store {A} (l : list A) (i : int USize) (x : A) : option (list A) :=
  replace l (Z.to_nat (val i)) x.
Definition push {A} (l : list A) (x : A) : list A := l ++ [x].
(** [vec![x; n]] and [[x; n]] *)
Definition filled {A} (x : A) (n : int USize) : list A := repeat x (Z.to_nat (val n)).
(** [l.copy_from_slice(m)], [l[a..b].copy_from_slice(m)] *)
Definition copy_from_slice {A} (l m : list A) : option (list A) :=
  if Nat.eqb (length l) (length m) then Some m else None.
Definition copy_range {A} (l : list A) (a b : int USize) (m : list A) : option (list A) :=
  if (val a <=? val b) && (val b <=? Z.of_nat (length l)) &&
     (Z.of_nat (length m) =? val b - val a)
  then Some (firstn (Z.to_nat (val a)) l ++ m ++ skipn (Z.to_nat (val b)) l)
  else None.

(** [HashMap] with integer keys: the last insertion comes first *)
Definition map_new {t B} : list (int t * B) := [].
Definition insert {t B} (m : list (int t * B)) (k : int t) (v : B) : list (int t * B) := (k, v) :: m.
Fixpoint find {t B} (m : list (int t * B)) (k : int t) : option B :=
  match m with
  | [] => None
  | (k', v) :: r => if eq k k' then Some v else find r k
  end.

(** [for x in l { body }] and [for i in a..b { body }]; [s] holds the variables
    the body assigns *)
Fixpoint for_each {A S} (l : list A) (body : A -> S -> option S) (s : S) : option S :=
  match l with
  | [] => Some s
  | x :: r => match body x s with Some s' => for_each r body s' | None => None end
  end.
Fixpoint counting {t} (n : nat) (a : Z) : list (int t) :=
  match n with O => [] | S m => Int a :: counting m (a + 1) end.
Definition for_range {t S} (a b : int t) (body : int t -> S -> option S) (s : S) : option S :=
  for_each (counting (Z.to_nat (val b - val a)) (val a)) body s.
(** [while c { body }], cut off ([None]) after [fuel] rounds *)
Fixpoint while {S} (fuel : nat) (c : S -> option bool) (body : S -> option S) (s : S) : option S :=
  match fuel with
  | O => None
  | S n =>
      match c s with
      | Some true => match body s with Some s' => while n c body s' | None => None end
      | Some false => Some s
      | None => None
      end
  end.
