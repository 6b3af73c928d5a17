(** * Plaintext evaluation of the three update operations

    Model of [eval_plain] in fhevm/src/instructions/mod.rs. *)
Require Import ZArith List Bool.
From Verif Require Import Word Codec.
Import ListNotations.
Open Scope Z_scope.

(** mod.rs:151-154.  [bits] is the index of the sign bit, [0 < bits < 32]. *)
Definition sext (x bits : Z) : Z :=
  Z.lor (shr32 (shl32 x (32 - bits)) (32 - bits))
        (wmul (Z.land (shr32 x bits) 1) (Z.land 0xFFFFFFFF (shl32 0xFFFFFFFF bits))).

(** mod.rs:171-189 *)
Definition ram_eval (o : ram_op) (rs2 ram offset : Z) : Z :=
  match o with
  | MNONE => ram
  | MSW => rs2
  | MSB =>
      if offset =? 0 then Z.lor (Z.land rs2 0xFF) (Z.land ram 0xFFFFFF00)
      else if offset =? 1 then Z.lor (shl32 (Z.land rs2 0xFF) 8) (Z.land ram 0xFFFF00FF)
      else if offset =? 2 then Z.lor (shl32 (Z.land rs2 0xFF) 16) (Z.land ram 0xFF00FFFF)
      else if offset =? 3 then Z.lor (shl32 (Z.land rs2 0xFF) 24) (Z.land ram 0x00FFFFFF)
      else 0
  | MSH =>
      if offset =? 0 then Z.lor (Z.land rs2 0xFFFF) (Z.land ram 0xFFFF0000)
      else if offset =? 2 then Z.lor (shl32 (Z.land rs2 0xFFFF) 16) (Z.land ram 0xFFFF)
      else 0
  end.

(** mod.rs:192-197 *)
Definition RAM_LIST : list ram_op := [MNONE; MSB; MSH; MSW].

(** mod.rs:219-267 *)
Definition pc_eval (o : pc_op) (imm rs1 rs2 pc : Z) : Z :=
  match o with
  | PNONE => wadd pc 4
  | PBEQ => if rs1 =? rs2 then wadd pc imm else wadd pc 4
  | PBGE => if i32 rs1 >=? i32 rs2 then wadd pc imm else wadd pc 4
  | PBGEU => if rs1 >=? rs2 then wadd pc imm else wadd pc 4
  | PBLT => if i32 rs1 <? i32 rs2 then wadd pc imm else wadd pc 4
  | PBLTU => if rs1 <? rs2 then wadd pc imm else wadd pc 4
  | PBNE => if negb (rs1 =? rs2) then wadd pc imm else wadd pc 4
  | PJAL => wadd pc imm
  | PJALR => Z.land (wadd rs1 imm) 0xFFFFFFFE
  end.

(** mod.rs:270-280 *)
Definition PC_LIST : list pc_op :=
  [PNONE; PBEQ; PBGE; PBGEU; PBLT; PBLTU; PBNE; PJAL; PJALR].

(** mod.rs:329-418.  [None] is the panic of native [%] (REM with a zero
    divisor, mod.rs:408); every other operation is total. *)
Definition rd_eval (o : rd_op) (imm rs1 rs2 pc ram : Z) : option Z :=
  match o with
  | RNONE => Some 0
  | RLUI => Some (shl32 imm 12)
  | RAUIPC => Some (wadd pc (shl32 imm 12))
  | RADDI => Some (wadd rs1 imm)
  | RSLTI => Some (b2w (i32 rs1 <? i32 imm))
  | RSLTIU => Some (b2w (rs1 <? imm))
  | RXORI => Some (Z.lxor rs1 imm)
  | RORI => Some (Z.lor rs1 imm)
  | RANDI => Some (Z.land rs1 imm)
  | RSLLI => Some (shl32 rs1 (Z.land imm 0x1F))
  | RSRLI => Some (shr32 rs1 (Z.land imm 0x1F))
  | RSRAI => Some (sar32 rs1 (Z.land imm 0x1F))
  | RADD => Some (wadd rs1 rs2)
  | RSUB => Some (wsub rs1 rs2)
  | RSLL => Some (shl32 rs1 (Z.land rs2 0x1F))
  | RSLT => Some (b2w (i32 rs1 <? i32 rs2))
  | RSLTU => Some (b2w (rs1 <? rs2))
  | RXOR => Some (Z.lxor rs1 rs2)
  | RSRL => Some (shr32 rs1 (Z.land rs2 0x1F))
  | RSRA => Some (sar32 rs1 (Z.land rs2 0x1F))
  | ROR => Some (Z.lor rs1 rs2)
  | RAND => Some (Z.land rs1 rs2)
  | RLB => Some (sext (Z.land ram 0xFF) 7)
  | RLH => Some (sext (Z.land ram 0xFFFF) 15)
  | RLW => Some ram
  | RLBU => Some (Z.land ram 0xFF)
  | RLHU => Some (Z.land ram 0xFFFF)
  | RJAL => Some (wadd pc 4)
  | RJALR => Some (wadd pc 4)
  | RMUL => Some (wmul rs1 rs2)
  | RMULH => Some (u32 (Z.shiftr (i64 (i32 rs1 * i32 rs2)) 32))
  | RMULHSU => Some (u32 (Z.shiftr (i64 (i32 rs1 * rs2)) 32))
  | RMULHU => Some (u32 (Z.shiftr (i64 (rs1 * rs2)) 32))
  | RDIV =>
      if rs2 =? 0 then Some 2147483647
      else if (i32 rs1 =? -2147483648) && (i32 rs2 =? -1) then Some (u32 (-2147483648))
      else Some (u32 (Z.quot (i32 rs1) (i32 rs2)))
  | RDIVU => if rs2 =? 0 then Some rs1 else Some (Z.quot rs1 rs2)
  | RREM =>
      if rs1 =? 0 then Some rs1
      else if (i32 rs1 =? -2147483648) && (i32 rs2 =? -1) then Some 0
      else if rs2 =? 0 then None
      else Some (u32 (Z.rem (i32 rs1) (i32 rs2)))
  | RREMU => if rs2 =? 0 then Some rs1 else Some (Z.rem rs1 rs2)
  end.

(** mod.rs:462-492 *)
Definition RD_RV32I : list rd_op :=
  [RNONE; RLUI; RAUIPC; RADDI; RSLTI; RSLTIU; RXORI; RORI; RANDI; RSLLI; RSRLI;
   RSRAI; RADD; RSUB; RSLL; RSLT; RSLTU; RXOR; RSRL; RSRA; ROR; RAND; RLB; RLBU;
   RLH; RLHU; RLW; RJAL; RJALR].

(** mod.rs:422-460 *)
Definition RD_RV32M : list rd_op :=
  RD_RV32I ++ [RMUL; RMULH; RMULHSU; RMULHU; RDIV; RDIVU; RREM; RREMU].
