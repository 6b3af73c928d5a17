(** * What a number written as text means (specification)

    Independent of how the text is produced: a text is read from the left, each
    byte a digit below the radix. *)
Require Import ZArith List Bool.
Import ListNotations.
Open Scope Z_scope.

Definition is_digit (radix c : Z) : Prop := 48 <= c < 48 + radix.
Definition value (radix : Z) (s : list Z) : Z := fold_left (fun v c => v * radix + (c - 48)) s 0.
(** [s] is a numeral of [n] *)
Definition numeral (radix : Z) (s : list Z) (n : Z) : Prop :=
  s <> [] /\ Forall (is_digit radix) s /\ value radix s = n.
(** no superfluous zero in front *)
Definition canonical (s : list Z) : Prop := hd 0 s = 48 -> s = [48].
(** bit [31 - i] of a word is the [i]th byte *)
Definition bits_msb (w : Z) : list Z := map (fun i => if Z.testbit w (31 - Z.of_nat i) then 49 else 48) (seq 0 32).
