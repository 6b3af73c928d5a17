(** * What the reference VM's decoder should return *)
Require Import ZArith Bool List.
From Verif Require Import Isa Codec DecodeSpec.
From Verif Require TestVM.
Import ListNotations.
Open Scope Z_scope.
Module T := TestVM.

(** the decoded form of a legal instruction; immediates are 32-bit words, the
    U-type immediate is already shifted *)
Definition t_of (i : instr) : T.inst :=
  match i with
  | LUI rd imm => T.LUI rd (to_word (imm * 2 ^ 12))
  | AUIPC rd imm => T.AUIPC rd (to_word (imm * 2 ^ 12))
  | JAL rd off => T.JAL rd (to_word off)
  | JALR rd rs1 off => T.JALR rs1 rd (to_word off)
  | BRANCH EQ a b o => T.BEQ a b (to_word o)
  | BRANCH NE a b o => T.BNE a b (to_word o)
  | BRANCH LT a b o => T.BLT a b (to_word o)
  | BRANCH GE a b o => T.BGE a b (to_word o)
  | BRANCH LTU a b o => T.BLTU a b (to_word o)
  | BRANCH GEU a b o => T.BGEU a b (to_word o)
  | LOAD LB rd a o => T.LB a rd (to_word o)
  | LOAD LH rd a o => T.LH a rd (to_word o)
  | LOAD LW rd a o => T.LW a rd (to_word o)
  | LOAD LBU rd a o => T.LBU a rd (to_word o)
  | LOAD LHU rd a o => T.LHU a rd (to_word o)
  | STORE SB a b o => T.SB a b (to_word o)
  | STORE SH a b o => T.SH a b (to_word o)
  | STORE SW a b o => T.SW a b (to_word o)
  | OPI ADDI rd a o => T.ADDI a rd (to_word o)
  | OPI SLTI rd a o => T.SLTI a rd (to_word o)
  | OPI SLTIU rd a o => T.SLTIU a rd (to_word o)
  | OPI XORI rd a o => T.XORI a rd (to_word o)
  | OPI ORI rd a o => T.ORI a rd (to_word o)
  | OPI ANDI rd a o => T.ANDI a rd (to_word o)
  | SHI SLLI rd a s => T.SLLI a rd s
  | SHI SRLI rd a s => T.SRLI a rd s
  | SHI SRAI rd a s => T.SRAI a rd s
  | OPR ADD rd a b => T.ADD a b rd
  | OPR SUB rd a b => T.SUB a b rd
  | OPR SLL rd a b => T.SLL a b rd
  | OPR SLT rd a b => T.SLT a b rd
  | OPR SLTU rd a b => T.SLTU a b rd
  | OPR XOR rd a b => T.XOR a b rd
  | OPR SRL rd a b => T.SRL a b rd
  | OPR SRA rd a b => T.SRA a b rd
  | OPR OR rd a b => T.OR a b rd
  | OPR AND rd a b => T.AND a b rd
  | OPM MUL rd a b => T.MUL a b rd
  | OPM MULH rd a b => T.MULH a b rd
  | OPM MULHSU rd a b => T.MULHSU a b rd
  | OPM MULHU rd a b => T.MULHU a b rd
  | OPM DIV rd a b => T.DIV a b rd
  | OPM DIVU rd a b => T.DIVU a b rd
  | OPM REM rd a b => T.REM a b rd
  | OPM REMU rd a b => T.REMU a b rd
  end.

(** reading of a reference-VM instruction in the terms of the encrypted VM:
    operation ids, registers (rs2, rs1, rd), immediate word *)
Definition t_ops (t : T.inst) : rd_op * ram_op * pc_op :=
  match t with
  | T.ADD _ _ _ => (RADD, MNONE, PNONE) | T.SUB _ _ _ => (RSUB, MNONE, PNONE)
  | T.SLL _ _ _ => (RSLL, MNONE, PNONE) | T.SLT _ _ _ => (RSLT, MNONE, PNONE)
  | T.SLTU _ _ _ => (RSLTU, MNONE, PNONE) | T.XOR _ _ _ => (RXOR, MNONE, PNONE)
  | T.SRL _ _ _ => (RSRL, MNONE, PNONE) | T.SRA _ _ _ => (RSRA, MNONE, PNONE)
  | T.OR _ _ _ => (ROR, MNONE, PNONE) | T.AND _ _ _ => (RAND, MNONE, PNONE)
  | T.ADDI _ _ _ => (RADDI, MNONE, PNONE) | T.SLTI _ _ _ => (RSLTI, MNONE, PNONE)
  | T.SLTIU _ _ _ => (RSLTIU, MNONE, PNONE) | T.XORI _ _ _ => (RXORI, MNONE, PNONE)
  | T.ORI _ _ _ => (RORI, MNONE, PNONE) | T.ANDI _ _ _ => (RANDI, MNONE, PNONE)
  | T.SLLI _ _ _ => (RSLLI, MNONE, PNONE) | T.SRLI _ _ _ => (RSRLI, MNONE, PNONE)
  | T.SRAI _ _ _ => (RSRAI, MNONE, PNONE)
  | T.MUL _ _ _ => (RMUL, MNONE, PNONE) | T.MULH _ _ _ => (RMULH, MNONE, PNONE)
  | T.MULHSU _ _ _ => (RMULHSU, MNONE, PNONE) | T.MULHU _ _ _ => (RMULHU, MNONE, PNONE)
  | T.DIV _ _ _ => (RDIV, MNONE, PNONE) | T.DIVU _ _ _ => (RDIVU, MNONE, PNONE)
  | T.REM _ _ _ => (RREM, MNONE, PNONE) | T.REMU _ _ _ => (RREMU, MNONE, PNONE)
  | T.LUI _ _ => (RLUI, MNONE, PNONE) | T.AUIPC _ _ => (RAUIPC, MNONE, PNONE)
  | T.JAL _ _ => (RJAL, MNONE, PJAL) | T.JALR _ _ _ => (RJALR, MNONE, PJALR)
  | T.BEQ _ _ _ => (RNONE, MNONE, PBEQ) | T.BNE _ _ _ => (RNONE, MNONE, PBNE)
  | T.BLT _ _ _ => (RNONE, MNONE, PBLT) | T.BGE _ _ _ => (RNONE, MNONE, PBGE)
  | T.BLTU _ _ _ => (RNONE, MNONE, PBLTU) | T.BGEU _ _ _ => (RNONE, MNONE, PBGEU)
  | T.LB _ _ _ => (RLB, MNONE, PNONE) | T.LH _ _ _ => (RLH, MNONE, PNONE)
  | T.LW _ _ _ => (RLW, MNONE, PNONE) | T.LBU _ _ _ => (RLBU, MNONE, PNONE)
  | T.LHU _ _ _ => (RLHU, MNONE, PNONE)
  | T.SB _ _ _ => (RNONE, MSB, PNONE) | T.SH _ _ _ => (RNONE, MSH, PNONE)
  | T.SW _ _ _ => (RNONE, MSW, PNONE)
  end.
Definition t_regs (t : T.inst) : Z * Z * Z :=
  match t with
  | T.ADD a b d | T.SUB a b d | T.SLL a b d | T.SLT a b d | T.SLTU a b d | T.XOR a b d
  | T.SRL a b d | T.SRA a b d | T.OR a b d | T.AND a b d | T.MUL a b d | T.MULH a b d
  | T.MULHSU a b d | T.MULHU a b d | T.DIV a b d | T.DIVU a b d | T.REM a b d | T.REMU a b d =>
      (b, a, d)
  | T.ADDI a d _ | T.SLTI a d _ | T.SLTIU a d _ | T.XORI a d _ | T.ORI a d _ | T.ANDI a d _
  | T.SLLI a d _ | T.SRLI a d _ | T.SRAI a d _ | T.JALR a d _
  | T.LB a d _ | T.LH a d _ | T.LW a d _ | T.LBU a d _ | T.LHU a d _ => (0, a, d)
  | T.LUI d _ | T.AUIPC d _ | T.JAL d _ => (0, 0, d)
  | T.BEQ a b _ | T.BNE a b _ | T.BLT a b _ | T.BGE a b _ | T.BLTU a b _ | T.BGEU a b _
  | T.SB a b _ | T.SH a b _ | T.SW a b _ => (b, a, 0)
  end.
(** the immediate as the encrypted VM represents it: the U-type one is the
    20-bit field, not yet shifted *)
Definition t_imm_is (t : T.inst) (imm : Z) : Prop :=
  match t with
  | T.LUI _ v | T.AUIPC _ v => v = to_word (imm * 2 ^ 12) /\ 0 <= imm < 2 ^ 20
  | T.ADD _ _ _ | T.SUB _ _ _ | T.SLL _ _ _ | T.SLT _ _ _ | T.SLTU _ _ _ | T.XOR _ _ _
  | T.SRL _ _ _ | T.SRA _ _ _ | T.OR _ _ _ | T.AND _ _ _ | T.MUL _ _ _ | T.MULH _ _ _
  | T.MULHSU _ _ _ | T.MULHU _ _ _ | T.DIV _ _ _ | T.DIVU _ _ _ | T.REM _ _ _ | T.REMU _ _ _ =>
      imm = 0
  | T.ADDI _ _ v | T.SLTI _ _ v | T.SLTIU _ _ v | T.XORI _ _ v | T.ORI _ _ v | T.ANDI _ _ v
  | T.SLLI _ _ v | T.SRLI _ _ v | T.SRAI _ _ v | T.JALR _ _ v
  | T.LB _ _ v | T.LH _ _ v | T.LW _ _ v | T.LBU _ _ v | T.LHU _ _ v | T.JAL _ v
  | T.BEQ _ _ v | T.BNE _ _ v | T.BLT _ _ v | T.BGE _ _ v | T.BLTU _ _ v | T.BGEU _ _ v
  | T.SB _ _ v | T.SH _ _ v | T.SW _ _ v => imm = v
  end.

(** Words the reference decoder accepts although they are not RV32IM: it looks
    at bit 30 and bit 25 only where the manual fixes all of funct7. *)
Definition t_lenient (w : Z) : Prop :=
  let f3 := fld 14 12 w in let f7 := fld 31 25 w in
  (fld 6 0 w = 19 /\ f3 = 1 /\ f7 <> 0) \/
  (fld 6 0 w = 19 /\ f3 = 5 /\ f7 <> 0 /\ f7 <> 32) \/
  (fld 6 0 w = 51 /\ f7 <> 0 /\ f7 <> 1 /\ ~ (f7 = 32 /\ (f3 = 0 \/ f3 = 5))).
