(** * The start of every guest program

    runtime/src/lib.rs:20-43, the assembly placed at address 0 by the linker
    script (compiler/linker-script/default.x: .init comes first in FLASH).
    The addresses of the symbols are parameters.  Simplified: [la] is the
    two-instruction form (AUIPC, ADDI); a linker may relax the second one
    ([la sp]) to a shorter form. *)
Require Import ZArith List.
Require Import Verif.Isa Verif.RunSpec.
Import ListNotations.
Open Scope Z_scope.

(** The assembler's %pcrel_hi and %pcrel_lo of a distance [d]: the low part is a
    signed 12-bit number, the high part makes up for its sign. *)
Definition pcrel_hi (d : Z) : Z := ((d + 2 ^ 11) / 2 ^ 12) mod 2 ^ 20.
Definition pcrel_lo (d : Z) : Z := signed 12 d.
(** [la rd, sym] at address [a] *)
Definition la (rd sym a : Z) : list instr :=
  [AUIPC rd (pcrel_hi (sym - a)); OPI ADDI rd rd (pcrel_lo (sym - a))].
(** csrrw x0, cycle, x0 *)
Definition UNIMP : Z := 0xC0001073.

(** lib.rs:26-43.  [gp] is __global_pointer$, [sp] is _stack_start, [main] the
    address of _start_rust.  [blez x10, run] is BGE x0, x10. *)
Definition start_code (gp sp main : Z) : list Z :=
  asm (la 3 gp 0) ++
  asm (la 2 sp 8) ++
  asm [OPI ADDI 8 2 0] ++
  asm [BRANCH GE 0 10 8] ++
  [UNIMP] ++
  asm [JAL 1 (main - 28)] ++
  [UNIMP].
