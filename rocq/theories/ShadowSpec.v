(** * The machine that the shadow VM really is

    As [ExactSpec], for the plaintext VM that checks the encrypted one.  With
    [strict] the machine also stops where the two disagree. *)
Require Import ZArith List Bool.
From Verif Require Import Isa EvalSpec ExactSpec.
Import ListNotations.
Open Scope Z_scope.

Record sm := SM { s_pc : Z; s_rf : Z -> Z; s_ram : Z -> Z }.

(** RAM of [n] words, any [n > 0] *)
Definition word_at (n a : Z) : Z := to_word (a - 2 ^ 18) / 4 mod n.
(** as the encrypted VM, but LB extends the sign *)
Definition sh_loaded (k : ldk) (w : Z) : Z :=
  match k with LB => to_word (signed 8 w) | _ => loaded k w end.

Definition sh_exec (strict : bool) (n : Z) (i : instr) (s : sm) : option sm :=
  let next := to_word (s_pc s + 4) in
  let isa := let m := isa_step i {| m_pc := s_pc s; m_rf := s_rf s; m_mem := fun _ => 0 |} in
             Some {| s_pc := m_pc m; s_rf := m_rf m; s_ram := s_ram s |} in
  match i with
  | JAL _ off => if strict && negb ((- 2 ^ 19 <=? off) && (off <? 2 ^ 19)) then None else isa
  | LOAD k rd rs1 off =>
      let w := s_ram s (word_at n (get (s_rf s) rs1 + off)) in
      if strict && match k with LB => 128 <=? w mod 2 ^ 8 | _ => false end then None
      else Some {| s_pc := next; s_rf := put (s_rf s) rd (sh_loaded k w); s_ram := s_ram s |}
  | STORE k rs1 rs2 off =>
      let a := get (s_rf s) rs1 + off in
      Some {| s_pc := next; s_rf := s_rf s;
              s_ram := fun j => if j =? word_at n a then stored k a (s_ram s j) (get (s_rf s) rs2) else s_ram s j |}
  | OPM _ _ _ _ => None
  | _ => isa
  end.
(** The low two bits of the pc are ignored; beyond the program it panics. *)
Definition sh_step (strict : bool) (n : Z) (prog : list Z) (s : sm) : option sm :=
  match nth_error prog (Z.to_nat (s_pc s / 4)) with
  | None => None
  | Some w => match action_of w with
              | Some (Exec i) => sh_exec strict n i s
              | Some Skip => Some {| s_pc := to_word (s_pc s + 4); s_rf := s_rf s; s_ram := s_ram s |}
              | None => None
              end
  end.
Fixpoint sh_run (strict : bool) (n : Z) (prog : list Z) (c : nat) (s : sm) : option sm :=
  match c with
  | O => Some s
  | S c' => match sh_step strict n prog s with Some s' => sh_run strict n prog c' s' | None => None end
  end.
Definition sh_start (ram : list Z) : sm :=
  {| s_pc := 0; s_rf := fun _ => 0; s_ram := fun k => nth (Z.to_nat k) ram 0 |}.
