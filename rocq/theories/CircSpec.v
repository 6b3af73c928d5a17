(** * Specification: a circuit that reads only what it has written

    Stated on the flat node array: position [p] is slot [p mod w] of level
    [p / w]. *)
Require Import NArith List Arith.
From Verif Require Import Bdd.
Import ListNotations.
Open Scope nat_scope.

(** slot [j] of the level before position [p] holds a value: it is one of the
    two constants below the first level, a written slot above. *)
Definition holds_value (w : nat) (nodes : list node) (p j : nat) : Prop :=
  j < w /\
  match p / w with
  | O => j <= 1
  | S l => exists n, nth_error nodes (l * w + j) = Some n /\ n <> E
  end.
Definition reads_written (nin : N) (b : bit_circuit) : Prop :=
  match b with
  | BC w nodes =>
      (exists l, length nodes = l * w) /\ (w = 0 -> nodes = []) /\
      (w <> 0 -> exists n, nth_error nodes (length nodes - w) = Some n /\ n <> E) /\
      forall p n, nth_error nodes p = Some n ->
        match n with
        | C s h l => (s < nin)%N /\ holds_value w nodes p (N.to_nat h) /\ holds_value w nodes p (N.to_nat l)
        | P => holds_value w nodes p (p mod w)
        | E => True
        end
  end.
