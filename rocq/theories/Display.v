(** * Numbers as text

    What `write!(f, "{:032b}", w)`, `{:30b}` and `{}` produce for an unsigned
    integer.  Text is a list of bytes, as in Host.v.  The two functions of the
    standard library (core::fmt::num and Formatter::pad_integral) are written
    out from their documentation; they are not in /repo. *)
Require Import ZArith List Bool.
Require Import Verif.Word.
Import ListNotations.
Open Scope Z_scope.

(** the byte of a digit below 16 *)
Definition digit (d : Z) : Z := if d <? 10 then 48 + d else 87 + d.
(** digits are written from the last to the first until nothing is left, at
    least one; [fuel] is the size of the buffer *)
Fixpoint digits (radix : Z) (fuel : nat) (x : Z) (acc : list Z) : list Z :=
  match fuel with
  | O => acc
  | S f =>
      let acc := digit (x mod radix) :: acc in
      if x / radix =? 0 then acc else digits radix f (x / radix) acc
  end.
Definition show (radix x : Z) : list Z := digits radix 128 x [].
(** a minimal width, filled on the left *)
Definition pad (fill : Z) (width : nat) (s : list Z) : list Z := repeat fill (width - length s) ++ s.

(** fhevm/src/instructions/mod.rs:604-608, and 610-615 which reuses it: `{:032b}` *)
Definition display_instruction (w : Z) : list Z := pad 48 32 (show 2 w).
(** fhevm/src/instructions/r_type.rs:211: `{:30b}`, filled with spaces *)
Definition display_wide (w : Z) : list Z := pad 32 30 (show 2 w).
(** compiler/src/interpreter/testvm.rs:151-156: `RegisterIndex::from` *)
Definition register_index (v : Z) : option Z := assert (v <? 32); Some v.
(** compiler/src/interpreter/testvm.rs:158-162: `r{}` *)
Definition display_register (r : Z) : list Z := 114 :: show 10 r.
(** `{}` of an unsigned integer, e.g. the counts and addresses in the messages of
    compiler/src/interpreter.rs *)
Definition display_number (n : Z) : list Z := show 10 n.
