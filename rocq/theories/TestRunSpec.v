(** * When a reference-VM state shows an ISA machine state *)
Require Import ZArith Bool List.
From Verif Require Import Isa.
From Verif Require TestVM.
Import ListNotations.
Open Scope Z_scope.
Module T := TestVM.

Definition is_byte (b : Z) : Prop := 0 <= b < 256.

(** the RAM region [offset, offset+size) lies in the 32-bit address space and
    is backed by that many bytes *)
Definition mem_ok (m : T.memory) : Prop :=
  0 <= T.offset m /\ 0 < T.size m /\ T.offset m + T.size m <= 2 ^ 32 /\
  Z.of_nat (length (T.data m)) = T.size m /\ Forall is_byte (T.data m).

(** well-formed machine state *)
Definition vm_ok (s : T.vm) : Prop :=
  length (T.registers s) = 32%nat /\ Forall word (T.registers s) /\
  nth_error (T.registers s) 0 = Some 0 /\ word (T.pc s) /\ mem_ok (T.ram s).

Definition in_region (m : T.memory) (a len : Z) : Prop :=
  T.offset m <= a /\ a + len <= T.offset m + T.size m.

(** same pc, same registers, same bytes over the RAM region *)
Definition shows_mem (m : T.memory) (mm : Z -> Z) : Prop :=
  forall a, in_region m a 1 ->
    nth_error (T.data m) (Z.to_nat (a - T.offset m)) = Some (mm a).
Definition shows (s : T.vm) (m : mach) : Prop :=
  T.pc s = m_pc m /\
  (forall r, reg r -> nth_error (T.registers s) (Z.to_nat r) = Some (get (m_rf m) r)) /\
  shows_mem (T.ram s) (m_mem m).

Definition ld_size (k : ldk) : Z := match k with LB | LBU => 1 | LH | LHU => 2 | LW => 4 end.
Definition st_size (k : stk) : Z := match k with SB => 1 | SH => 2 | SW => 4 end.
(** effective address of a load or store *)
Definition ea (m : mach) (rs1 off : Z) : Z := to_word (get (m_rf m) rs1 + off).
(** the bytes the instruction accesses lie in the region *)
Definition stays_in (mem : T.memory) (i : instr) (m : mach) : Prop :=
  match i with
  | LOAD k _ rs1 off => in_region mem (ea m rs1 off) (ld_size k)
  | STORE k rs1 _ off => in_region mem (ea m rs1 off) (st_size k)
  | _ => True
  end.

(** misalignment the reference VM refuses.  Note [SH]: only the address 3
    modulo 4 is refused. *)
Definition refused (i : instr) (m : mach) : Prop :=
  match i with
  | JAL _ _ | JALR _ _ _ => m_pc (isa_step i m) mod 4 <> 0
  | BRANCH c rs1 rs2 off =>
      taken c (get (m_rf m) rs1) (get (m_rf m) rs2) = true /\ m_pc (isa_step i m) mod 4 <> 0
  | LOAD (LH | LHU) _ rs1 off => ea m rs1 off mod 2 <> 0
  | LOAD LW _ rs1 off => ea m rs1 off mod 4 <> 0
  | STORE SH rs1 _ off => ea m rs1 off mod 4 = 3
  | STORE SW rs1 _ off => ea m rs1 off mod 4 <> 0
  | _ => False
  end.
(** sequential pc overflow, detected only with overflow checks *)
Definition sequential (i : instr) (m : mach) : Prop :=
  match i with
  | JAL _ _ | JALR _ _ _ => False
  | BRANCH c rs1 rs2 _ => taken c (get (m_rf m) rs1) (get (m_rf m) rs2) = false
  | _ => True
  end.
Definition pc_overflow (chk : bool) (i : instr) (m : mach) : Prop :=
  chk = true /\ sequential i m /\ 2 ^ 32 <= m_pc m + 4.

(** division by zero and signed overflow, where the reference VM panics *)
Definition div_trap (i : instr) (m : mach) : Prop :=
  match i with
  | OPM (DIV | REM) _ rs1 rs2 =>
      get (m_rf m) rs2 = 0 \/ (get (m_rf m) rs1 = 2 ^ 31 /\ get (m_rf m) rs2 = 2 ^ 32 - 1)
  | OPM (DIVU | REMU) _ rs1 rs2 => get (m_rf m) rs2 = 0
  | _ => False
  end.
