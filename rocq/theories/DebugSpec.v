(** * When a shadow-VM state shows an ISA machine state *)
Require Import ZArith Bool List.
From Verif Require Import Isa Codec DecodeSpec EvalSpec DebugVM TestRunSpec.
Import ListNotations.
Open Scope Z_scope.

(** RAM of [n] words placed at [base] in the address space.  The code subtracts
    2^18 and reduces modulo [n]; that is the identity placement for a base of
    2^18, and for any base congruent to it when the byte size divides 2^32. *)
Definition base_ok (base n : Z) : Prop :=
  0 < n /\ 0 <= base /\ base + 4 * n <= 2 ^ 32 /\
  (base = 2 ^ 18 \/ ((4 * n | 2 ^ 32) /\ (4 * n | base - 2 ^ 18))).

Definition dvm_ok (s : dvm) : Prop :=
  length (dregs s) = 32%nat /\ Forall word (dregs s) /\ nth_error (dregs s) 0 = Some 0 /\
  word (dpc s) /\ Z.of_nat (length (dram s)) = ram_size s /\ 0 < ram_size s /\ Forall word (dram s).

(** byte [a] of the address space is byte [(a - base) mod 4] of word
    [(a - base) / 4], little endian *)
Definition dshows_mem (base : Z) (d : list Z) (mm : Z -> Z) : Prop :=
  forall a, base <= a < base + 4 * Z.of_nat (length d) ->
    exists w, nth_error d (Z.to_nat ((a - base) / 4)) = Some w /\ mm a = byte ((a - base) mod 4) w.
Definition dshows (base : Z) (s : dvm) (m : mach) : Prop :=
  dpc s = m_pc m /\
  (forall r, reg r -> nth_error (dregs s) (Z.to_nat r) = Some (get (m_rf m) r)) /\
  dshows_mem base (dram s) (m_mem m).

(** entry [k] of the seven tables is the decoded form of [i] *)
Definition entry_is (r : roms) (k : nat) (i : instr) : Prop :=
  let '(rs2, rs1, rd) := regs_of i in
  let '(o1, o2, o3) := ops_of i in
  nth_error (imm_rom r) k = Some (imm_of i) /\
  nth_error (rs1_rom r) k = Some rs1 /\ nth_error (rs2_rom r) k = Some rs2 /\
  nth_error (rd_rom r) k = Some rd /\ nth_error (rdu_rom r) k = Some (rd_id o1) /\
  nth_error (mu_rom r) k = Some (ram_id o2) /\ nth_error (pcu_rom r) k = Some (pc_id o3).

(** the bytes accessed are in RAM and the access is one the shadow VM gets
    right: word-aligned loads, naturally aligned stores, no RV32M *)
Definition dsupported (base n : Z) (i : instr) (m : mach) : Prop :=
  match i with
  | LOAD k _ rs1 off =>
      base <= ea m rs1 off /\ ea m rs1 off + ld_size k <= base + 4 * n /\ ea m rs1 off mod 4 = 0
  | STORE k rs1 _ off =>
      base <= ea m rs1 off /\ ea m rs1 off + st_size k <= base + 4 * n /\
      ea m rs1 off mod st_size k = 0
  | OPM _ _ _ _ => False
  | _ => True
  end.

(** the part of the state that never changes *)
Definition dstatic (s s' : dvm) : Prop :=
  drom s' = drom s /\ ram_size s' = ram_size s /\ rom_size s' = rom_size s /\
  length (dram s') = length (dram s).
