(** * Programs and runs *)
Require Import ZArith Bool List.
From Verif Require Import Word Isa EvalSpec TestRunSpec DebugVM DebugSpec.
Import ListNotations.
Open Scope Z_scope.

(** A program is a list of 32-bit words placed from address 0, four bytes each.
    Words that are not legal instructions may be present; the machine stops
    when it would have to execute one. *)
Definition fetch (prog : list Z) (pc : Z) : option instr :=
  if pc mod 4 =? 0 then do w <- nth_error prog (Z.to_nat (pc / 4)); isa_of w else None.
(** [n] ISA steps; [None] when the pc leaves the program or reaches a word that
    is not an instruction *)
Fixpoint isa_run (prog : list Z) (n : nat) (m : mach) : option mach :=
  match n with
  | O => Some m
  | S n' => do i <- fetch prog (m_pc m); isa_run prog n' (isa_step i m)
  end.
(** [P] holds of every instruction executed in the next [n] steps and of the
    state it is executed in; in particular the pc stays in the program, at
    legal instructions *)
Fixpoint along (P : instr -> mach -> Prop) (prog : list Z) (n : nat) (m : mach) : Prop :=
  match n with
  | O => True
  | S n' => exists i, fetch prog (m_pc m) = Some i /\ P i m /\ along P prog n' (isa_step i m)
  end.

(** little-endian image *)
Definition le_bytes (w : Z) : list Z := [byte 0 w; byte 1 w; byte 2 w; byte 3 w].
Definition image (prog : list Z) : list Z := flat_map le_bytes prog.
(** the program made of the given instructions *)
Definition asm (l : list instr) : list Z := map encode l.

(** the reference VM's ROM holds the program *)
Definition rom_holds (rom : T.memory) (prog : list Z) : Prop :=
  T.offset rom = 0 /\ T.size rom = 4 * Z.of_nat (length prog) /\ T.data rom = image prog /\
  4 * Z.of_nat (length prog) <= 2 ^ 32.
(** the shadow VM's tables hold the program *)
Definition tables_hold (r : roms) (prog : list Z) : Prop :=
  forall k w i, nth_error prog k = Some w -> isa_of w = Some i -> entry_is r k i.

(** what the reference VM executes without panicking *)
Definition t_fine (chk : bool) (mem : T.memory) (i : instr) (m : mach) : Prop :=
  stays_in mem i m /\ ~ refused i m /\ ~ pc_overflow chk i m /\ ~ div_trap i m.

(** bytes of a RAM of words, little endian *)
Definition ram_bytes (d : list Z) : list Z := flat_map le_bytes d.
