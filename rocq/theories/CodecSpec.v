(** * Specification vocabulary for instruction words

    Independent of the model: which bits belong to which field, which format
    a word has, and what a written immediate should read back as. *)
Require Import ZArith Bool List.
From Verif Require Import Isa.
Import ListNotations.
Open Scope Z_scope.

Inductive field := Fopcode | Frd | Ff3 | Frs1 | Frs2 | Fshamt | Ff7.
Definition f_lo (f : field) : Z :=
  match f with Fopcode => 0 | Frd => 7 | Ff3 => 12 | Frs1 => 15 | Frs2 | Fshamt => 20 | Ff7 => 25 end.
Definition f_len (f : field) : Z :=
  match f with Fopcode | Ff7 => 7 | Ff3 => 3 | _ => 5 end.
Definition fget (f : field) (w : Z) : Z := fld (f_lo f + f_len f - 1) (f_lo f) w.
Definition disjoint (f g : field) : Prop :=
  f_lo f + f_len f <= f_lo g \/ f_lo g + f_len g <= f_lo f.

(** formats that carry an immediate *)
Inductive fmt := FmtI | FmtSh | FmtS | FmtB | FmtU | FmtJ.
Definition format (w : Z) : option fmt :=
  let op := fld 6 0 w in
  let f3 := fld 14 12 w in
  if op =? 55 then Some FmtU else if op =? 23 then Some FmtU
  else if op =? 111 then Some FmtJ
  else if op =? 99 then Some FmtB
  else if op =? 35 then Some FmtS
  else if op =? 3 then Some FmtI else if op =? 103 then Some FmtI
  else if op =? 19 then (if f3 =? 1 then Some FmtSh else if f3 =? 5 then Some FmtSh else Some FmtI)
  else None.

(** does bit [n] of the word belong to the immediate? *)
Definition imm_bit (f : fmt) (n : Z) : bool :=
  match f with
  | FmtI => 20 <=? n
  | FmtSh => (20 <=? n) && (n <? 25)
  | FmtS | FmtB => ((7 <=? n) && (n <? 12)) || (25 <=? n)
  | FmtU | FmtJ => 12 <=? n
  end.

(** what an immediate written into the format must read back as, as a word *)
Definition imm_cut (f : fmt) (imm : Z) : Z :=
  match f with
  | FmtI | FmtS => to_word (signed 12 imm)
  | FmtSh => imm mod 32
  | FmtB => to_word (signed 13 (imm - imm mod 2))
  | FmtU => imm mod 2 ^ 20
  | FmtJ => to_word (signed 21 (imm - imm mod 2))
  end.
