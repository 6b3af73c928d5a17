(** * Specification: assembling an instruction operand by operand *)
Require Import ZArith List.
Require Import Verif.Isa Verif.Asm.
Import ListNotations.
Open Scope Z_scope.

(** the instruction a template stands for, all operands zero *)
Definition template_instr (t : template) : instr :=
  match t with
  | T_LUI => LUI 0 0 | T_AUIPC => AUIPC 0 0 | T_JAL => JAL 0 0
  | T_ADDI => OPI ADDI 0 0 0 | T_SLTI => OPI SLTI 0 0 0 | T_SLTIU => OPI SLTIU 0 0 0
  | T_XORI => OPI XORI 0 0 0 | T_ORI => OPI ORI 0 0 0 | T_ANDI => OPI ANDI 0 0 0
  | T_SLLI => SHI SLLI 0 0 0 | T_SRLI => SHI SRLI 0 0 0 | T_SRAI => SHI SRAI 0 0 0
  | T_ADD => OPR ADD 0 0 0 | T_SUB => OPR SUB 0 0 0 | T_SLL => OPR SLL 0 0 0 | T_SLT => OPR SLT 0 0 0
  | T_SLTU => OPR SLTU 0 0 0 | T_XOR => OPR XOR 0 0 0 | T_SRL => OPR SRL 0 0 0 | T_SRA => OPR SRA 0 0 0
  | T_OR => OPR OR 0 0 0 | T_AND => OPR AND 0 0 0
  | T_LB => LOAD LB 0 0 0 | T_LH => LOAD LH 0 0 0 | T_LW => LOAD LW 0 0 0
  | T_LBU => LOAD LBU 0 0 0 | T_LHU => LOAD LHU 0 0 0
  | T_SB => STORE SB 0 0 0 | T_SH => STORE SH 0 0 0 | T_SW => STORE SW 0 0 0
  | T_BEQ => BRANCH EQ 0 0 0 | T_BNE => BRANCH NE 0 0 0 | T_BLT => BRANCH LT 0 0 0
  | T_BGE => BRANCH GE 0 0 0 | T_BLTU => BRANCH LTU 0 0 0 | T_BGEU => BRANCH GEU 0 0 0
  | T_JALR => JALR 0 0 0
  end.

(** The instruction with one operand replaced by the 32-bit value [v], cut to the
    width of the operand; [None] if the instruction has no such operand. *)
Definition put (o : operand) (v : Z) (i : instr) : option instr :=
  let r := v mod 32 in
  match o, i with
  | O_rd, LUI _ m => Some (LUI r m)
  | O_rd, AUIPC _ m => Some (AUIPC r m)
  | O_rd, JAL _ m => Some (JAL r m)
  | O_rd, JALR _ a m => Some (JALR r a m)
  | O_rd, LOAD k _ a m => Some (LOAD k r a m)
  | O_rd, OPI k _ a m => Some (OPI k r a m)
  | O_rd, SHI k _ a m => Some (SHI k r a m)
  | O_rd, OPR k _ a b => Some (OPR k r a b)
  | O_rd, OPM k _ a b => Some (OPM k r a b)
  | O_rs1, JALR d _ m => Some (JALR d r m)
  | O_rs1, BRANCH k _ b m => Some (BRANCH k r b m)
  | O_rs1, LOAD k d _ m => Some (LOAD k d r m)
  | O_rs1, STORE k _ b m => Some (STORE k r b m)
  | O_rs1, OPI k d _ m => Some (OPI k d r m)
  | O_rs1, SHI k d _ m => Some (SHI k d r m)
  | O_rs1, OPR k d _ b => Some (OPR k d r b)
  | O_rs1, OPM k d _ b => Some (OPM k d r b)
  | O_rs2, BRANCH k a _ m => Some (BRANCH k a r m)
  | O_rs2, STORE k a _ m => Some (STORE k a r m)
  | O_rs2, OPR k d a _ => Some (OPR k d a r)
  | O_rs2, OPM k d a _ => Some (OPM k d a r)
  | O_imm, LUI d _ => Some (LUI d (v mod 2 ^ 20))
  | O_imm, AUIPC d _ => Some (AUIPC d (v mod 2 ^ 20))
  | O_imm, JAL d _ => Some (JAL d (signed 21 (v - v mod 2)))
  | O_imm, JALR d a _ => Some (JALR d a (signed 12 v))
  | O_imm, BRANCH k a b _ => Some (BRANCH k a b (signed 13 (v - v mod 2)))
  | O_imm, LOAD k d a _ => Some (LOAD k d a (signed 12 v))
  | O_imm, STORE k a b _ => Some (STORE k a b (signed 12 v))
  | O_imm, OPI k d a _ => Some (OPI k d a (signed 12 v))
  | O_imm, SHI k d a _ => Some (SHI k d a r)
  | _, _ => None
  end.
Fixpoint puts (ops : list (operand * Z)) (i : instr) : option instr :=
  match ops with
  | [] => Some i
  | (o, v) :: r => match put o v i with Some i' => puts r i' | None => None end
  end.
