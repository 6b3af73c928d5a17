(** * The time of a cycle

    The blocks of the dependency graph in doc/costs.md and when they run.
    Durations are integers, in any unit. *)
Require Import ZArith List Bool.
Require Import Verif.Flow.
Import ListNotations.
Open Scope Z_scope.

(** doc/costs.md:52-95 *)
Inductive block := READ_INST | READ_REG | READ_RAM | UPDATE_REG | UPDATE_RAM | UPDATE_PC.
Definition block_of (n : node) : option block :=
  match n with
  | IMM | RS1_INDEX | RS2_INDEX | RD_INDEX | PCU | RDU | MU => Some READ_INST
  | RS1 | RS2 => Some READ_REG
  | RAM_ADDRESS | RAM_VAL => Some READ_RAM
  | POSSIBLE_RD_VALS | RD => Some UPDATE_REG
  | POSSIBLE_RAM_VALS | NEW_RAM_VAL => Some UPDATE_RAM
  | NEW_PC_VAL => Some UPDATE_PC
  | _ => None
  end.
(** the durations given in doc/costs.md:54-93, in ms *)
Definition doc_ms (b : block) : Z :=
  match b with
  | READ_INST => 165 | READ_REG => 144 | READ_RAM => 79 | UPDATE_REG => 210 | UPDATE_RAM => 81 | UPDATE_PC => 81
  end.

(** interpreter.rs:532-614: the order of the calls in a cycle.  Each returns
    before the next one is made; the threads are inside the calls.  The
    preparation of pc (533-552) is counted with [READ_INST]. *)
Definition code_order : list block := [READ_INST; READ_REG; READ_RAM; UPDATE_REG; UPDATE_RAM; UPDATE_PC].
(** interpreter.rs:522, 616-618: the time at which the calls in [l], the first
    made at [t], have all returned *)
Fixpoint sequential (d : block -> Z) (l : list block) (t : Z) : Z :=
  match l with [] => t | b :: l' => sequential d l' (t + d b) end.
Definition code_time (d : block -> Z) : Z := sequential d code_order 0.
