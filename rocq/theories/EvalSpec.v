(** * Specification of the three update operations

    The value each operation must produce, by the ISA's arithmetic.
    [imm] is the 32-bit immediate word, [ram] the RAM word at the accessed
    index. *)
Require Import ZArith Bool List.
From Verif Require Import Isa Codec.
Import ListNotations.
Open Scope Z_scope.

(** byte [k] of a word *)
Definition byte (k w : Z) : Z := (w / 2 ^ (8 * k)) mod 2 ^ 8.

(** RV32I: [None] for the operations of the M extension *)
Definition rd_spec (o : rd_op) (imm x y pc ram : Z) : option Z :=
  match o with
  | RNONE => Some 0
  | RLUI => Some (to_word (imm * 2 ^ 12))
  | RAUIPC => Some (to_word (pc + imm * 2 ^ 12))
  | RADDI => Some (alu_iop ADDI x (s32 imm))
  | RSLTI => Some (alu_iop SLTI x (s32 imm))
  | RSLTIU => Some (alu_iop SLTIU x (s32 imm))
  | RXORI => Some (alu_iop XORI x (s32 imm))
  | RORI => Some (alu_iop ORI x (s32 imm))
  | RANDI => Some (alu_iop ANDI x (s32 imm))
  | RSLLI => Some (alu_shop SLLI x (imm mod 32))
  | RSRLI => Some (alu_shop SRLI x (imm mod 32))
  | RSRAI => Some (alu_shop SRAI x (imm mod 32))
  | RADD => Some (alu_rop ADD x y) | RSUB => Some (alu_rop SUB x y)
  | RSLL => Some (alu_rop SLL x y) | RSLT => Some (alu_rop SLT x y)
  | RSLTU => Some (alu_rop SLTU x y) | RXOR => Some (alu_rop XOR x y)
  | RSRL => Some (alu_rop SRL x y) | RSRA => Some (alu_rop SRA x y)
  | ROR => Some (alu_rop OR x y) | RAND => Some (alu_rop AND x y)
  | RLB => Some (to_word (signed 8 (byte 0 ram)))
  | RLBU => Some (byte 0 ram)
  | RLH => Some (to_word (signed 16 (ram mod 2 ^ 16)))
  | RLHU => Some (ram mod 2 ^ 16)
  | RLW => Some ram
  | RJAL | RJALR => Some (to_word (pc + 4))
  | _ => None
  end.

Definition mop_of (o : rd_op) : option mop :=
  match o with
  | RMUL => Some MUL | RMULH => Some MULH | RMULHSU => Some MULHSU | RMULHU => Some MULHU
  | RDIV => Some DIV | RDIVU => Some DIVU | RREM => Some REM | RREMU => Some REMU
  | _ => None
  end.

Definition pc_spec (o : pc_op) (imm x y pc : Z) : Z :=
  let br c := if taken c x y then to_word (pc + s32 imm) else to_word (pc + 4) in
  match o with
  | PNONE => to_word (pc + 4)
  | PJAL => to_word (pc + s32 imm)
  | PJALR => let t := to_word (x + s32 imm) in t - t mod 2
  | PBEQ => br EQ | PBNE => br NE | PBLT => br LT | PBGE => br GE
  | PBLTU => br LTU | PBGEU => br GEU
  end.

(** bytes a store of a given size writes, starting at byte [off] of the word *)
Definition store_size (o : ram_op) : Z :=
  match o with MNONE => 0 | MSB => 1 | MSH => 2 | MSW => 4 end.
(** natural alignment: the store stays within one word *)
Definition aligned (o : ram_op) (off : Z) : Prop :=
  match o with MNONE | MSB => True | MSH => off mod 2 = 0 | MSW => off = 0 end.
