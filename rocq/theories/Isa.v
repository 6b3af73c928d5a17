(** * Specification: the RV32IM instruction set

    Written from the RISC-V unprivileged manual, independently of the code
    under study and of the model files.  Everything is plain integer
    arithmetic ([+], [*], [/], [mod]); no bit operators except the ones the
    manual itself names (AND/OR/XOR). *)
Require Import ZArith Bool.
Open Scope Z_scope.

Definition word (x : Z) : Prop := 0 <= x < 2 ^ 32.
Definition reg (r : Z) : Prop := 0 <= r < 32.

(** value of the low [n] bits of [x] *)
Definition low (n x : Z) : Z := x mod 2 ^ n.
(** two's complement value of the low [n] bits of [x] *)
Definition signed (n x : Z) : Z :=
  if low n x <? 2 ^ (n - 1) then low n x else low n x - 2 ^ n.
(** a (possibly negative) integer as a 32-bit word *)
Definition to_word (x : Z) : Z := x mod 2 ^ 32.

(** ** Abstract syntax.  Immediates are the mathematical offsets the assembly
    shows, except for the U-type whose 20-bit upper field is kept as is. *)
Inductive cond := EQ | NE | LT | GE | LTU | GEU.
Inductive ldk := LB | LH | LW | LBU | LHU.
Inductive stk := SB | SH | SW.
Inductive iop := ADDI | SLTI | SLTIU | XORI | ORI | ANDI.
Inductive shop := SLLI | SRLI | SRAI.
Inductive rop := ADD | SUB | SLL | SLT | SLTU | XOR | SRL | SRA | OR | AND.
Inductive mop := MUL | MULH | MULHSU | MULHU | DIV | DIVU | REM | REMU.

Inductive instr :=
| LUI (rd imm20 : Z)
| AUIPC (rd imm20 : Z)
| JAL (rd off : Z)
| JALR (rd rs1 off : Z)
| BRANCH (c : cond) (rs1 rs2 off : Z)
| LOAD (k : ldk) (rd rs1 off : Z)
| STORE (k : stk) (rs1 rs2 off : Z)
| OPI (o : iop) (rd rs1 imm : Z)
| SHI (o : shop) (rd rs1 sh : Z)
| OPR (o : rop) (rd rs1 rs2 : Z)
| OPM (o : mop) (rd rs1 rs2 : Z).

Definition legal (i : instr) : Prop :=
  match i with
  | LUI rd imm | AUIPC rd imm => reg rd /\ 0 <= imm < 2 ^ 20
  | JAL rd off => reg rd /\ - 2 ^ 20 <= off < 2 ^ 20 /\ off mod 2 = 0
  | JALR rd rs1 off => reg rd /\ reg rs1 /\ - 2 ^ 11 <= off < 2 ^ 11
  | BRANCH _ rs1 rs2 off =>
      reg rs1 /\ reg rs2 /\ - 2 ^ 12 <= off < 2 ^ 12 /\ off mod 2 = 0
  | LOAD _ rd rs1 off => reg rd /\ reg rs1 /\ - 2 ^ 11 <= off < 2 ^ 11
  | STORE _ rs1 rs2 off => reg rs1 /\ reg rs2 /\ - 2 ^ 11 <= off < 2 ^ 11
  | OPI _ rd rs1 imm => reg rd /\ reg rs1 /\ - 2 ^ 11 <= imm < 2 ^ 11
  | SHI _ rd rs1 sh => reg rd /\ reg rs1 /\ 0 <= sh < 32
  | OPR _ rd rs1 rs2 | OPM _ rd rs1 rs2 => reg rd /\ reg rs1 /\ reg rs2
  end.

(** ** Encoding.  [fld hi lo x] is bits [hi..lo] of [x]; [lo_n @ n @ hi]
    concatenates, least significant field first. *)
Definition fld (hi lo x : Z) : Z := (x / 2 ^ lo) mod 2 ^ (hi - lo + 1).
Definition cat (lo n hi : Z) : Z := lo + 2 ^ n * hi.

Definition enc_R (op rd f3 rs1 rs2 f7 : Z) : Z :=
  cat op 7 (cat rd 5 (cat f3 3 (cat rs1 5 (cat rs2 5 f7)))).
Definition enc_I (op rd f3 rs1 imm : Z) : Z :=
  cat op 7 (cat rd 5 (cat f3 3 (cat rs1 5 (fld 11 0 imm)))).
Definition enc_S (op f3 rs1 rs2 imm : Z) : Z :=
  cat op 7 (cat (fld 4 0 imm) 5 (cat f3 3 (cat rs1 5 (cat rs2 5 (fld 11 5 imm))))).
Definition enc_B (op f3 rs1 rs2 imm : Z) : Z :=
  cat op 7 (cat (fld 11 11 imm) 1 (cat (fld 4 1 imm) 4 (cat f3 3 (cat rs1 5 (cat rs2 5
    (cat (fld 10 5 imm) 6 (fld 12 12 imm))))))).
Definition enc_U (op rd imm20 : Z) : Z := cat op 7 (cat rd 5 imm20).
Definition enc_J (op rd imm : Z) : Z :=
  cat op 7 (cat rd 5 (cat (fld 19 12 imm) 8 (cat (fld 11 11 imm) 1
    (cat (fld 10 1 imm) 10 (fld 20 20 imm))))).

Definition cond_f3 c := match c with EQ => 0 | NE => 1 | LT => 4 | GE => 5 | LTU => 6 | GEU => 7 end.
Definition ld_f3 k := match k with LB => 0 | LH => 1 | LW => 2 | LBU => 4 | LHU => 5 end.
Definition st_f3 k := match k with SB => 0 | SH => 1 | SW => 2 end.
Definition iop_f3 o :=
  match o with ADDI => 0 | SLTI => 2 | SLTIU => 3 | XORI => 4 | ORI => 6 | ANDI => 7 end.
Definition shop_f3 o := match o with SLLI => 1 | SRLI | SRAI => 5 end.
Definition shop_f7 o := match o with SLLI | SRLI => 0 | SRAI => 32 end.
Definition rop_f3 o :=
  match o with ADD | SUB => 0 | SLL => 1 | SLT => 2 | SLTU => 3 | XOR => 4
  | SRL | SRA => 5 | OR => 6 | AND => 7 end.
Definition rop_f7 o := match o with SUB | SRA => 32 | _ => 0 end.
Definition mop_f3 o :=
  match o with MUL => 0 | MULH => 1 | MULHSU => 2 | MULHU => 3
  | DIV => 4 | DIVU => 5 | REM => 6 | REMU => 7 end.

Definition encode (i : instr) : Z :=
  match i with
  | LUI rd imm => enc_U 55 rd imm
  | AUIPC rd imm => enc_U 23 rd imm
  | JAL rd off => enc_J 111 rd off
  | JALR rd rs1 off => enc_I 103 rd 0 rs1 off
  | BRANCH c rs1 rs2 off => enc_B 99 (cond_f3 c) rs1 rs2 off
  | LOAD k rd rs1 off => enc_I 3 rd (ld_f3 k) rs1 off
  | STORE k rs1 rs2 off => enc_S 35 (st_f3 k) rs1 rs2 off
  | OPI o rd rs1 imm => enc_I 19 rd (iop_f3 o) rs1 imm
  | SHI o rd rs1 sh => enc_R 19 rd (shop_f3 o) rs1 sh (shop_f7 o)
  | OPR o rd rs1 rs2 => enc_R 51 rd (rop_f3 o) rs1 rs2 (rop_f7 o)
  | OPM o rd rs1 rs2 => enc_R 51 rd (mop_f3 o) rs1 rs2 1
  end.

(** Immediates of an instruction word (manual, section "Immediate Encoding
    Variants"), as mathematical integers. *)
Definition imm_I (w : Z) : Z := signed 12 (fld 31 20 w).
Definition imm_S (w : Z) : Z := signed 12 (cat (fld 11 7 w) 5 (fld 31 25 w)).
Definition imm_B (w : Z) : Z :=
  signed 13 (cat 0 1 (cat (fld 11 8 w) 4 (cat (fld 30 25 w) 6 (cat (fld 7 7 w) 1 (fld 31 31 w))))).
Definition imm_U (w : Z) : Z := fld 31 12 w.
Definition imm_J (w : Z) : Z :=
  signed 21 (cat 0 1 (cat (fld 30 21 w) 10 (cat (fld 20 20 w) 1 (cat (fld 19 12 w) 8 (fld 31 31 w))))).
Definition imm_sh (w : Z) : Z := fld 24 20 w.

(** A word is a legal RV32IM instruction of the user-level base this machine
    targets (no FENCE, no SYSTEM). *)
Definition legal_word (w : Z) : Prop := exists i, legal i /\ encode i = w.

(** The instruction of a word, if it is legal; [C46_isa_of] states that this is
    the inverse of [encode]. *)
Definition isa_of (w : Z) : option instr :=
  let op := fld 6 0 w in let f3 := fld 14 12 w in let f7 := fld 31 25 w in
  let rd := fld 11 7 w in let rs1 := fld 19 15 w in let rs2 := fld 24 20 w in
  if op =? 55 then Some (LUI rd (imm_U w))
  else if op =? 23 then Some (AUIPC rd (imm_U w))
  else if op =? 111 then Some (JAL rd (imm_J w))
  else if op =? 103 then if f3 =? 0 then Some (JALR rd rs1 (imm_I w)) else None
  else if op =? 99 then
    let b c := Some (BRANCH c rs1 rs2 (imm_B w)) in
    if f3 =? 0 then b EQ else if f3 =? 1 then b NE else if f3 =? 4 then b LT
    else if f3 =? 5 then b GE else if f3 =? 6 then b LTU else if f3 =? 7 then b GEU else None
  else if op =? 3 then
    let l k := Some (LOAD k rd rs1 (imm_I w)) in
    if f3 =? 0 then l LB else if f3 =? 1 then l LH else if f3 =? 2 then l LW
    else if f3 =? 4 then l LBU else if f3 =? 5 then l LHU else None
  else if op =? 35 then
    let s k := Some (STORE k rs1 rs2 (imm_S w)) in
    if f3 =? 0 then s SB else if f3 =? 1 then s SH else if f3 =? 2 then s SW else None
  else if op =? 19 then
    let o k := Some (OPI k rd rs1 (imm_I w)) in
    if f3 =? 0 then o ADDI else if f3 =? 2 then o SLTI else if f3 =? 3 then o SLTIU
    else if f3 =? 4 then o XORI else if f3 =? 6 then o ORI else if f3 =? 7 then o ANDI
    else if f3 =? 1 then if f7 =? 0 then Some (SHI SLLI rd rs1 rs2) else None
    else if f7 =? 0 then Some (SHI SRLI rd rs1 rs2)
    else if f7 =? 32 then Some (SHI SRAI rd rs1 rs2) else None
  else if op =? 51 then
    let r k := Some (OPR k rd rs1 rs2) in let m k := Some (OPM k rd rs1 rs2) in
    if f7 =? 0 then
      if f3 =? 0 then r ADD else if f3 =? 1 then r SLL else if f3 =? 2 then r SLT
      else if f3 =? 3 then r SLTU else if f3 =? 4 then r XOR else if f3 =? 5 then r SRL
      else if f3 =? 6 then r OR else r AND
    else if f7 =? 32 then
      if f3 =? 0 then r SUB else if f3 =? 5 then r SRA else None
    else if f7 =? 1 then
      if f3 =? 0 then m MUL else if f3 =? 1 then m MULH else if f3 =? 2 then m MULHSU
      else if f3 =? 3 then m MULHU else if f3 =? 4 then m DIV else if f3 =? 5 then m DIVU
      else if f3 =? 6 then m REM else m REMU
    else None
  else None.

(** ** Arithmetic.  Operands and results are words. *)
Definition s32 (x : Z) : Z := signed 32 x.
Definition bool_word (b : bool) : Z := if b then 1 else 0.

Definition alu_iop (o : iop) (x imm : Z) : Z :=
  match o with
  | ADDI => to_word (x + imm)
  | SLTI => bool_word (s32 x <? imm)
  | SLTIU => bool_word (x <? to_word imm)
  | XORI => Z.lxor x (to_word imm)
  | ORI => Z.lor x (to_word imm)
  | ANDI => Z.land x (to_word imm)
  end.
Definition alu_shop (o : shop) (x sh : Z) : Z :=
  match o with
  | SLLI => to_word (x * 2 ^ sh)
  | SRLI => x / 2 ^ sh
  | SRAI => to_word (s32 x / 2 ^ sh)
  end.
Definition alu_rop (o : rop) (x y : Z) : Z :=
  match o with
  | ADD => to_word (x + y)
  | SUB => to_word (x - y)
  | SLL => to_word (x * 2 ^ (y mod 32))
  | SLT => bool_word (s32 x <? s32 y)
  | SLTU => bool_word (x <? y)
  | XOR => Z.lxor x y
  | SRL => x / 2 ^ (y mod 32)
  | SRA => to_word (s32 x / 2 ^ (y mod 32))
  | OR => Z.lor x y
  | AND => Z.land x y
  end.
(** Division rounds towards zero.  By zero: quotient all ones, remainder the
    dividend.  Signed overflow: quotient the dividend, remainder zero. *)
Definition alu_mop (o : mop) (x y : Z) : Z :=
  match o with
  | MUL => to_word (x * y)
  | MULH => to_word ((s32 x * s32 y) / 2 ^ 32)
  | MULHSU => to_word ((s32 x * y) / 2 ^ 32)
  | MULHU => (x * y) / 2 ^ 32
  | DIV => if y =? 0 then 2 ^ 32 - 1 else to_word (Z.quot (s32 x) (s32 y))
  | DIVU => if y =? 0 then 2 ^ 32 - 1 else x / y
  | REM => if y =? 0 then x else to_word (Z.rem (s32 x) (s32 y))
  | REMU => if y =? 0 then x else x mod y
  end.
Definition taken (c : cond) (x y : Z) : bool :=
  match c with
  | EQ => x =? y
  | NE => negb (x =? y)
  | LT => s32 x <? s32 y
  | GE => s32 y <=? s32 x
  | LTU => x <? y
  | GEU => y <=? x
  end.

(** ** Byte-addressed little-endian memory *)
Definition ld8 (m : Z -> Z) (a : Z) : Z := m (to_word a).
Definition ld16 (m : Z -> Z) (a : Z) : Z := ld8 m a + 2 ^ 8 * ld8 m (a + 1).
Definition ld32 (m : Z -> Z) (a : Z) : Z := ld16 m a + 2 ^ 16 * ld16 m (a + 2).
Definition st8 (m : Z -> Z) (a v : Z) : Z -> Z :=
  fun x => if x =? to_word a then v mod 2 ^ 8 else m x.
Definition st16 (m : Z -> Z) (a v : Z) : Z -> Z :=
  st8 (st8 m a v) (a + 1) (v / 2 ^ 8).
Definition st32 (m : Z -> Z) (a v : Z) : Z -> Z :=
  st16 (st16 m a v) (a + 2) (v / 2 ^ 16).

Definition do_load (k : ldk) (m : Z -> Z) (a : Z) : Z :=
  match k with
  | LB => to_word (signed 8 (ld8 m a))
  | LBU => ld8 m a
  | LH => to_word (signed 16 (ld16 m a))
  | LHU => ld16 m a
  | LW => ld32 m a
  end.
Definition do_store (k : stk) (m : Z -> Z) (a v : Z) : Z -> Z :=
  match k with
  | SB => st8 m a v
  | SH => st16 m a v
  | SW => st32 m a v
  end.

(** ** One step of the machine *)
Record mach := { m_pc : Z; m_rf : Z -> Z; m_mem : Z -> Z }.

Definition get (rf : Z -> Z) (r : Z) : Z := if r =? 0 then 0 else rf r.
Definition put (rf : Z -> Z) (r v : Z) : Z -> Z :=
  fun x => if x =? 0 then 0 else if x =? r then v else get rf x.

Definition isa_step (i : instr) (s : mach) : mach :=
  let pc := m_pc s in
  let x r := get (m_rf s) r in
  let next := to_word (pc + 4) in
  let wr rd v := {| m_pc := next; m_rf := put (m_rf s) rd v; m_mem := m_mem s |} in
  match i with
  | LUI rd imm => wr rd (to_word (imm * 2 ^ 12))
  | AUIPC rd imm => wr rd (to_word (pc + imm * 2 ^ 12))
  | JAL rd off =>
      {| m_pc := to_word (pc + off); m_rf := put (m_rf s) rd next; m_mem := m_mem s |}
  | JALR rd rs1 off =>
      let t := to_word (x rs1 + off) in
      {| m_pc := t - t mod 2; m_rf := put (m_rf s) rd next; m_mem := m_mem s |}
  | BRANCH c rs1 rs2 off =>
      {| m_pc := if taken c (x rs1) (x rs2) then to_word (pc + off) else next;
         m_rf := get (m_rf s); m_mem := m_mem s |}
  | LOAD k rd rs1 off => wr rd (do_load k (m_mem s) (to_word (x rs1 + off)))
  | STORE k rs1 rs2 off =>
      {| m_pc := next; m_rf := get (m_rf s);
         m_mem := do_store k (m_mem s) (to_word (x rs1 + off)) (x rs2) |}
  | OPI o rd rs1 imm => wr rd (alu_iop o (x rs1) imm)
  | SHI o rd rs1 sh => wr rd (alu_shop o (x rs1) sh)
  | OPR o rd rs1 rs2 => wr rd (alu_rop o (x rs1) (x rs2))
  | OPM o rd rs1 rs2 => wr rd (alu_mop o (x rs1) (x rs2))
  end.
