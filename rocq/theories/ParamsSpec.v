(** * What a number of digits is for

    A key with [d] digits of [b] bits is applied to a number below [2^k] (a coefficient of a
    ciphertext of precision [k], a multiple of [2^-k] on the torus) by cutting the number's first
    [d * b] bits into digits.  The result stands for the number as a fraction: the digits, put
    together again, against [2^(d*b)]. *)
Require Import ZArith List.
Import ListNotations.
Open Scope Z_scope.

(** The first [b * d] bits of the fraction [x / 2^k], cut into digits; most significant first. *)
Fixpoint digits_of (b : Z) (d : nat) (n : Z) : list Z :=
  match d with O => [] | S d' => digits_of b d' (n / 2 ^ b) ++ [n mod 2 ^ b] end.
Definition digits (k b : Z) (d : nat) (x : Z) : list Z := digits_of b d (x * 2 ^ (b * Z.of_nat d) / 2 ^ k).
Definition together (b : Z) (l : list Z) : Z := fold_left (fun n x => n * 2 ^ b + x) l 0.

(** The digits give the number back: [together / 2^(b*d) = x / 2^k]. *)
Definition exact (k b : Z) (d : nat) (x : Z) : Prop := together b (digits k b d x) * 2 ^ k = x * 2 ^ (b * Z.of_nat d).
(** Nothing of a number of precision [k] is lost. *)
Definition lossless (k b : Z) (d : nat) : Prop := forall x, 0 <= x < 2 ^ k -> exact k b d x.
