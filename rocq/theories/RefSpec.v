(** * Specification: the reference VM as an exact machine

    What compiler/src/interpreter/testvm.rs computes from any state and any ROM
    contents, in terms of RISC-V instructions.  It deviates from RV32IM in three
    ways, all visible here: which words are instructions ([ref_of]), memory that
    repeats itself outside the region ([home]), and where it stops ([traps]). *)
Require Import ZArith Bool List.
From Verif Require Import Isa.
Import ListNotations.
Open Scope Z_scope.

(** The instruction of a word.  Where the manual fixes all of funct7 only bit 30
    and bit 25 are looked at. *)
Definition ref_of (w : Z) : option instr :=
  let op := fld 6 0 w in let f3 := fld 14 12 w in
  let rd := fld 11 7 w in let rs1 := fld 19 15 w in let rs2 := fld 24 20 w in
  let bit30 := fld 30 30 w =? 1 in let bit25 := fld 25 25 w =? 1 in
  if op =? 19 then
    if f3 =? 1 then Some (SHI SLLI rd rs1 rs2)
    else if f3 =? 5 then Some (SHI (if bit30 then SRAI else SRLI) rd rs1 rs2)
    else isa_of w
  else if op =? 51 then
    if bit25 then
      Some (OPM (if f3 =? 0 then MUL else if f3 =? 1 then MULH else if f3 =? 2 then MULHSU
                 else if f3 =? 3 then MULHU else if f3 =? 4 then DIV else if f3 =? 5 then DIVU
                 else if f3 =? 6 then REM else REMU) rd rs1 rs2)
    else
      Some (OPR (if f3 =? 0 then if bit30 then SUB else ADD else if f3 =? 1 then SLL
                 else if f3 =? 2 then SLT else if f3 =? 3 then SLTU else if f3 =? 4 then XOR
                 else if f3 =? 5 then if bit30 then SRA else SRL
                 else if f3 =? 6 then OR else AND) rd rs1 rs2)
  else isa_of w.

(** A memory is the bytes [off, off + size).  Any other address is an alias of a
    byte in the region; below the region the difference is taken modulo 2^64. *)
Definition home (off size a : Z) : Z :=
  off + (if off <=? a then a - off else a - off + 2 ^ 64) mod size.
Definition alias (off size : Z) (m : Z -> Z) : Z -> Z := fun a => m (home off size a).
Definition alias_store (off size : Z) (k : stk) (m : Z -> Z) (a v : Z) : Z -> Z :=
  let h x := home off size x in
  match k with
  | SB => st8 m (h a) v
  | SH => st8 (st8 m (h a) v) (h (a + 1)) (v / 2 ^ 8)
  | SW => st8 (st8 (st8 (st8 m (h a) v) (h (a + 1)) (v / 2 ^ 8)) (h (a + 2)) (v / 2 ^ 16)) (h (a + 3)) (v / 2 ^ 24)
  end.

Definition eff (m : mach) (rs1 off : Z) : Z := to_word (get (m_rf m) rs1 + off).

(** Where it panics.  [chk]: the build checks arithmetic overflow. *)
Definition traps (chk : bool) (off : Z) (i : instr) (m : mach) : bool :=
  let x r := get (m_rf m) r in
  let over := chk && (2 ^ 32 <=? m_pc m + 4) in
  let odd_jump := negb (m_pc (isa_step i m) mod 4 =? 0) in
  match i with
  | JAL _ _ | JALR _ _ _ => odd_jump
  | BRANCH c rs1 rs2 _ => if taken c (x rs1) (x rs2) then odd_jump else over
  | LOAD k _ rs1 o =>
      let a := eff m rs1 o in
      (chk && (a <? off)) ||
      match k with LB | LBU => false | LH | LHU => negb (a mod 2 =? 0) | LW => negb (a mod 4 =? 0) end || over
  | STORE k rs1 _ o =>
      let a := eff m rs1 o in
      (chk && (a <? off)) ||
      match k with SB => false | SH => a mod 4 =? 3 | SW => negb (a mod 4 =? 0) end || over
  | OPM (DIV | REM) _ rs1 rs2 =>
      (x rs2 =? 0) || ((x rs1 =? 2 ^ 31) && (x rs2 =? 2 ^ 32 - 1)) || over
  | OPM (DIVU | REMU) _ rs1 rs2 => (x rs2 =? 0) || over
  | _ => over
  end.

(** What it does otherwise. *)
Definition effect (off size : Z) (i : instr) (m : mach) : mach :=
  let next := to_word (m_pc m + 4) in
  match i with
  | LOAD k rd rs1 o =>
      {| m_pc := next; m_rf := put (m_rf m) rd (do_load k (alias off size (m_mem m)) (eff m rs1 o)); m_mem := m_mem m |}
  | STORE k rs1 rs2 o =>
      {| m_pc := next; m_rf := get (m_rf m);
         m_mem := alias_store off size k (m_mem m) (eff m rs1 o) (get (m_rf m) rs2) |}
  | _ => isa_step i m
  end.

(** Region of a memory: its offset and its size. *)
Definition region : Type := Z * Z.
(** [rom] are the bytes of the ROM. *)
Definition ref_step (chk : bool) (ro ra : region) (rom : Z -> Z) (m : mach) : option mach :=
  if (chk && (m_pc m <? fst ro)) || negb (m_pc m mod 4 =? 0) then None
  else match ref_of (ld32 (alias (fst ro) (snd ro) rom) (m_pc m)) with
       | None => None
       | Some i => if traps chk (fst ra) i m then None else Some (effect (fst ra) (snd ra) i m)
       end.
Fixpoint ref_run (chk : bool) (ro ra : region) (rom : Z -> Z) (n : nat) (m : mach) : option mach :=
  match n with
  | O => Some m
  | S n' => match ref_step chk ro ra rom m with Some m' => ref_run chk ro ra rom n' m' | None => None end
  end.

(** ** A whole session: load, input, run, output *)
Definition bytes_from (start : Z) (l : list Z) (a : Z) : Z :=
  if (start <=? a) && (a <? start + Z.of_nat (length l)) then nth (Z.to_nat (a - start)) l 0 else 0.
(** the input tape lies over the loaded data *)
Definition start_mem (off : Z) (ram : list Z) (inp : Z) (tape : list Z) (a : Z) : Z :=
  if (inp <=? a) && (a <? inp + Z.of_nat (length tape)) then bytes_from inp tape a else bytes_from off ram a.
Definition tape_out (chk : bool) (ra : region) (start : Z) (n : nat) (m : Z -> Z) : option (list Z) :=
  if chk && (start <? fst ra) && negb (Nat.eqb n 0) then None
  else Some (map (fun k => m (home (fst ra) (snd ra) (start + Z.of_nat k))) (seq 0 n)).
(** [inp], [out]: start address and size of the two tapes *)
Definition ref_session (chk : bool) (ro ra : region) (rom_data ram_data : list Z) (inp out : Z * Z) (cycles : nat) (tape : list Z)
    : option (list Z) :=
  if (Z.of_nat (length rom_data) <=? snd ro) && (Z.of_nat (length ram_data) <=? snd ra) &&
     (Z.of_nat (length tape) =? snd inp) && (fst ra <=? fst inp) && (fst inp + snd inp <=? fst ra + snd ra)
  then match ref_run chk ro ra (bytes_from (fst ro) rom_data) cycles
               {| m_pc := 0; m_rf := fun _ => 0; m_mem := start_mem (fst ra) ram_data (fst inp) tape |} with
       | Some m => tape_out chk ra (fst out) (Z.to_nat (snd out)) (m_mem m)
       | None => None
       end
  else None.
