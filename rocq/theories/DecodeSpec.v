(** * What the decoder should return for each legal instruction *)
Require Import ZArith Bool List.
From Verif Require Import Isa Codec.
Import ListNotations.
Open Scope Z_scope.

Definition iop_id (o : iop) : rd_op :=
  match o with ADDI => RADDI | SLTI => RSLTI | SLTIU => RSLTIU | XORI => RXORI
  | ORI => RORI | ANDI => RANDI end.
Definition shop_id (o : shop) : rd_op := match o with SLLI => RSLLI | SRLI => RSRLI | SRAI => RSRAI end.
Definition rop_id (o : rop) : rd_op :=
  match o with ADD => RADD | SUB => RSUB | SLL => RSLL | SLT => RSLT | SLTU => RSLTU
  | XOR => RXOR | SRL => RSRL | SRA => RSRA | OR => ROR | AND => RAND end.
Definition mop_id (o : mop) : rd_op :=
  match o with MUL => RMUL | MULH => RMULH | MULHSU => RMULHSU | MULHU => RMULHU
  | DIV => RDIV | DIVU => RDIVU | REM => RREM | REMU => RREMU end.
Definition ldk_id (k : ldk) : rd_op :=
  match k with LB => RLB | LH => RLH | LW => RLW | LBU => RLBU | LHU => RLHU end.
Definition stk_id (k : stk) : ram_op := match k with SB => MSB | SH => MSH | SW => MSW end.
Definition cond_id (c : cond) : pc_op :=
  match c with EQ => PBEQ | NE => PBNE | LT => PBLT | GE => PBGE | LTU => PBLTU | GEU => PBGEU end.

(** register, memory and pc operation *)
Definition ops_of (i : instr) : rd_op * ram_op * pc_op :=
  match i with
  | LUI _ _ => (RLUI, MNONE, PNONE)
  | AUIPC _ _ => (RAUIPC, MNONE, PNONE)
  | JAL _ _ => (RJAL, MNONE, PJAL)
  | JALR _ _ _ => (RJALR, MNONE, PJALR)
  | BRANCH c _ _ _ => (RNONE, MNONE, cond_id c)
  | LOAD k _ _ _ => (ldk_id k, MNONE, PNONE)
  | STORE k _ _ _ => (RNONE, stk_id k, PNONE)
  | OPI o _ _ _ => (iop_id o, MNONE, PNONE)
  | SHI o _ _ _ => (shop_id o, MNONE, PNONE)
  | OPR o _ _ _ => (rop_id o, MNONE, PNONE)
  | OPM o _ _ _ => (mop_id o, MNONE, PNONE)
  end.
(** (rs2, rs1, rd), zero when the instruction has no such operand *)
Definition regs_of (i : instr) : Z * Z * Z :=
  match i with
  | LUI rd _ | AUIPC rd _ | JAL rd _ => (0, 0, rd)
  | JALR rd rs1 _ | LOAD _ rd rs1 _ | OPI _ rd rs1 _ | SHI _ rd rs1 _ => (0, rs1, rd)
  | BRANCH _ rs1 rs2 _ | STORE _ rs1 rs2 _ => (rs2, rs1, 0)
  | OPR _ rd rs1 rs2 | OPM _ rd rs1 rs2 => (rs2, rs1, rd)
  end.
(** the immediate as a 32-bit word *)
Definition imm_of (i : instr) : Z :=
  match i with
  | LUI _ imm | AUIPC _ imm => imm
  | JAL _ off | JALR _ _ off | BRANCH _ _ _ off | LOAD _ _ _ off | STORE _ _ _ off => to_word off
  | OPI _ _ _ imm => to_word imm
  | SHI _ _ _ sh => sh
  | OPR _ _ _ _ | OPM _ _ _ _ => 0
  end.

(** What the whole decoder returns for a word. *)
Definition decoded (dbg : bool) (w : Z) (o : rd_op * ram_op * pc_op) (r : Z * Z * Z) (imm : Z) : Prop :=
  get_opid dbg w = Some o /\ get_registers dbg w = Some r /\ get_imm dbg w = Some imm.
Definition accepted (dbg : bool) (w : Z) : Prop := exists o r imm, decoded dbg w o r imm.

(** Words the decoder accepts although they are not RV32IM encodings:
    SLLI with a nonzero funct7, JALR with a nonzero funct3, and every word
    with the SYSTEM opcode. *)
Definition lenient (w : Z) : Prop :=
  (fld 6 0 w = 19 /\ fld 14 12 w = 1 /\ fld 31 25 w <> 0) \/
  (fld 6 0 w = 103 /\ fld 14 12 w <> 0) \/
  fld 6 0 w = 115.
