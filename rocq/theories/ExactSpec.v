(** * The machine that the encrypted VM really is

    A plaintext machine over instruction words, written with the ISA of [Isa]
    only.  Nothing is assumed about the program: every deviation from RV32IM is
    spelled out here.  [C59] states that the encrypted VM follows this machine
    in every cycle of every run. *)
Require Import ZArith List Bool.
From Verif Require Import Isa EvalSpec.
Import ListNotations.
Open Scope Z_scope.

(** ** What a program word does *)
Inductive action := Exec (i : instr) | Skip.
(** A legal word: its instruction.  SLLI with any funct7: SLLI.  JALR with any
    funct3: JALR.  SYSTEM: nothing.  Other words are refused when the program is
    loaded. *)
Definition action_of (w : Z) : option action :=
  match isa_of w with
  | Some i => Some (Exec i)
  | None =>
      let op := fld 6 0 w in let f3 := fld 14 12 w in
      let rd := fld 11 7 w in let rs1 := fld 19 15 w in
      if op =? 19 then if f3 =? 1 then Some (Exec (SHI SLLI rd rs1 (imm_sh w))) else None
      else if op =? 103 then Some (Exec (JALR rd rs1 (imm_I w)))
      else if op =? 115 then Some Skip
      else None
  end.

(** ** Memory: [2^mb] words starting at address [2^18] *)
(** the word an address falls on; addresses wrap around in both directions *)
Definition slot_of (mb : nat) (a : Z) : Z := to_word (a - 2 ^ 18) / 4 mod 2 ^ Z.of_nat mb.
(** Loads take the low bytes of the word, whatever the low address bits are;
    LB does not extend the sign. *)
Definition loaded (k : ldk) (w : Z) : Z :=
  match k with
  | LB | LBU => w mod 2 ^ 8
  | LH => to_word (signed 16 w)
  | LHU => w mod 2 ^ 16
  | LW => w
  end.
Definition word_of (b : Z -> Z) : Z := b 0 + 2 ^ 8 * (b 1 + 2 ^ 8 * (b 2 + 2 ^ 8 * b 3)).
(** Stores: SB at any byte; SH at byte 0 or 2, at byte 1 or 3 it clears the
    word; SW writes the word, whatever the low address bits are. *)
Definition stored (k : stk) (a old v : Z) : Z :=
  let off := a mod 4 in
  let splice n := word_of (fun j => if (off <=? j) && (j <? off + n) then byte (j - off) v else byte j old) in
  match k with
  | SB => splice 1
  | SH => if off mod 2 =? 0 then splice 2 else 0
  | SW => v
  end.

(** ** The M extension: the operation ids do not fit the selector *)
Definition m_result (o : mop) (x pc : Z) : Z :=
  match o with
  | DIVU => pc
  | REM => x
  | REMU => bool_word (s32 x <? 0)
  | _ => 0
  end.

(** ** One instruction *)
Definition exec (mb : nat) (i : instr) (pc : Z) (rf ram : Z -> Z) : Z * (Z -> Z) * (Z -> Z) :=
  let next := to_word (pc + 4) in
  match i with
  | JAL rd off => (to_word (pc + signed 20 off), put rf rd next, ram)
  | LOAD k rd rs1 off => (next, put rf rd (loaded k (ram (slot_of mb (get rf rs1 + off)))), ram)
  | STORE k rs1 rs2 off =>
      let a := get rf rs1 + off in
      (next, rf, fun j => if j =? slot_of mb a then stored k a (ram j) (get rf rs2) else ram j)
  | OPM o rd rs1 _ => (next, put rf rd (m_result o (get rf rs1) pc), ram)
  | _ => let m := isa_step i {| m_pc := pc; m_rf := rf; m_mem := fun _ => 0 |} in (m_pc m, m_rf m, ram)
  end.

(** ** One cycle *)
Record qm := QM {
  q_cycle : Z;          (* cycles so far *)
  q_last : Z;           (* where the last instruction was *)
  q_pc : Z; q_rf : Z -> Z; q_ram : Z -> Z }.
(** [2^rb] program slots.  The pc is taken modulo their size in bytes, and its
    low two bits are ignored.  A slot beyond the program stops the machine.
    Whenever the 32-bit cycle counter is zero the last instruction is repeated. *)
Definition q_step (rb mb : nat) (prog : list Z) (s : qm) : qm :=
  let pc := if q_cycle s mod 2 ^ 32 =? 0 then q_last s else q_pc s mod (4 * 2 ^ Z.of_nat rb) in
  let '(pc', rf', ram') :=
    match nth_error prog (Z.to_nat (pc / 4)) with
    | None => (pc, q_rf s, q_ram s)
    | Some w => match action_of w with
                | Some (Exec i) => exec mb i pc (q_rf s) (q_ram s)
                | _ => (to_word (pc + 4), q_rf s, q_ram s)
                end
    end in
  {| q_cycle := q_cycle s + 1; q_last := pc; q_pc := pc'; q_rf := rf'; q_ram := ram' |}.
Fixpoint q_run (rb mb : nat) (prog : list Z) (n : nat) (s : qm) : qm :=
  match n with O => s | S n' => q_run rb mb prog n' (q_step rb mb prog s) end.
(** registers zero, RAM as given and zero beyond, pc 0 *)
Definition q_start (ram : list Z) : qm :=
  {| q_cycle := 0; q_last := 0; q_pc := 0; q_rf := fun _ => 0; q_ram := fun k => nth (Z.to_nat k) ram 0 |}.
