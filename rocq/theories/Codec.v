(** * Instruction words: fields, immediates, operation ids, parser

    Model of fhevm/src/instructions/mod.rs and the [*_type.rs] files.
    [dbg] is [cfg(debug_assertions)].  A Rust panic is [None]. *)
Require Import ZArith List Bool.
From Verif Require Import Word.
Import ListNotations.
Open Scope Z_scope.

(** mod.rs:156-164 *)
Inductive ram_op := MNONE | MSB | MSH | MSW.
Definition ram_id (o : ram_op) : Z :=
  match o with MNONE => 0 | MSB => 1 | MSH => 2 | MSW => 3 end.

(** mod.rs:199-212 *)
Inductive pc_op := PNONE | PJAL | PJALR | PBEQ | PBNE | PBLT | PBGE | PBLTU | PBGEU.
Definition pc_id (o : pc_op) : Z :=
  match o with
  | PNONE => 1 | PJAL => 3 | PJALR => 7 | PBEQ => 0 | PBNE => 4
  | PBLT => 6 | PBGE => 14 | PBLTU => 2 | PBGEU => 10
  end.

(** mod.rs:281-322 *)
Inductive rd_op :=
| RNONE | RLUI | RAUIPC | RADDI | RSLTI | RSLTIU | RXORI | RORI | RANDI
| RSLLI | RSRLI | RSRAI | RADD | RSUB | RSLL | RSLT | RSLTU | RXOR | RSRL
| RSRA | ROR | RAND | RLB | RLBU | RLH | RLHU | RLW | RJAL | RJALR
| RMUL | RMULH | RMULHSU | RMULHU | RDIV | RDIVU | RREM | RREMU.
Definition rd_id (o : rd_op) : Z :=
  match o with
  | RNONE => 0 | RLUI => 1 | RAUIPC => 2 | RADDI => 3 | RSLTI => 4 | RSLTIU => 5
  | RXORI => 6 | RORI => 7 | RANDI => 8 | RSLLI => 9 | RSRLI => 10 | RSRAI => 11
  | RADD => 12 | RSUB => 13 | RSLL => 14 | RSLT => 15 | RSLTU => 16 | RXOR => 17
  | RSRL => 18 | RSRA => 19 | ROR => 20 | RAND => 21 | RLB => 22 | RLBU => 23
  | RLH => 24 | RLHU => 25 | RLW => 26 | RJAL => 27 | RJALR => 28 | RMUL => 29
  | RMULH => 30 | RMULHSU => 31 | RMULHU => 32 | RDIV => 33 | RDIVU => 34
  | RREM => 35 | RREMU => 36
  end.

(** mod.rs:617-631 *)
Definition RS1MASK := 0x000F8000.
Definition RS2MASK := 0x01F00000.
Definition FUNCT3MASK := 0x00007000.
Definition FUNCT7MASK := 0xFE000000.
Definition SHAMTMASK := 0x01F00000.
Definition RDMASK := 0x00000F80.
Definition OPCODEMASK := 0x0000007F.
Definition RS1SHIFT := 15.
Definition RS2SHIFT := 20.
Definition FUNCT3SHIFT := 12.
Definition FUNCT7SHIFT := 25.
Definition SHAMTSHIFT := 20.
Definition RDSHIFT := 7.
Definition OPCODESHIFT := 0.

(** Shape shared by all getters: [(self.0 & MASK) >> SHIFT] (e.g. mod.rs:677). *)
Definition getf (mask sh w : Z) : Z := shr32 (Z.land w mask) sh.
(** Shape shared by all setters:
    [(self.0 & (0xFFFF_FFFF ^ MASK)) | (v << SHIFT) & MASK] (e.g. mod.rs:692). *)
Definition setf (mask sh w v : Z) : Z :=
  Z.lor (Z.land w (Z.lxor 0xFFFFFFFF mask)) (Z.land (shl32 v sh) mask).

(** mod.rs:859-870 *)
Definition get_opcode (w : Z) : Z := getf OPCODEMASK OPCODESHIFT w.
Definition set_opcode (w v : Z) : Z := setf OPCODEMASK OPCODESHIFT w v.

(** mod.rs:633-642 *)
Inductive ity := TNONE | TR | TI | TS | TB | TU | TJ.

(** mod.rs:651-663; unknown opcodes panic *)
Definition get_type (w : Z) : option ity :=
  let op := get_opcode w in
  if (op =? 0x37) || (op =? 0x17) then Some TU
  else if (op =? 0x13) || (op =? 0x3) || (op =? 0x67) then Some TI
  else if op =? 0x33 then Some TR
  else if op =? 0x23 then Some TS
  else if op =? 0x6f then Some TJ
  else if op =? 0x63 then Some TB
  else if op =? 0x73 then Some TNONE
  else None.

(** The [#[cfg(debug_assertions)]] type checks at the head of each accessor:
    [ok] is the set of types the accessor admits. *)
Definition dbg_guard {A} (dbg : bool) (ok : ity -> bool) (w : Z) (r : A) : option A :=
  if dbg then
    match get_type w with
    | Some t => if ok t then Some r else None
    | None => None
    end
  else Some r.

Definition has_funct3 t := match t with TU | TJ => false | _ => true end.        (* mod.rs:669-675 *)
Definition has_get_funct7 t := match t with TR | TI => true | _ => false end.     (* mod.rs:701-707 *)
Definition has_set_funct7 t := match t with TR => true | _ => false end.          (* mod.rs:716-722 *)
Definition has_rs1 t := match t with TR | TI | TS | TB => true | _ => false end.  (* mod.rs:733-739 *)
Definition has_rs2 t := match t with TR | TS | TB => true | _ => false end.       (* mod.rs:764-770 *)
Definition has_rd t := match t with TR | TI | TU | TJ => true | _ => false end.   (* mod.rs:795-801 *)
Definition has_shamt t := match t with TI => true | _ => false end.               (* mod.rs:826-832 *)

(** mod.rs:666-851 *)
Definition get_funct3 dbg w := dbg_guard dbg has_funct3 w (getf FUNCT3MASK FUNCT3SHIFT w).
Definition set_funct3 dbg w v := dbg_guard dbg has_funct3 w (setf FUNCT3MASK FUNCT3SHIFT w v).
Definition get_funct7 dbg w := dbg_guard dbg has_get_funct7 w (getf FUNCT7MASK FUNCT7SHIFT w).
Definition set_funct7 dbg w v := dbg_guard dbg has_set_funct7 w (setf FUNCT7MASK FUNCT7SHIFT w v).
Definition get_rs1 dbg w := dbg_guard dbg has_rs1 w (getf RS1MASK RS1SHIFT w).
Definition set_rs1 dbg w v := dbg_guard dbg has_rs1 w (setf RS1MASK RS1SHIFT w v).
Definition get_rs2 dbg w := dbg_guard dbg has_rs2 w (getf RS2MASK RS2SHIFT w).
Definition set_rs2 dbg w v := dbg_guard dbg has_rs2 w (setf RS2MASK RS2SHIFT w v).
Definition get_rd dbg w := dbg_guard dbg has_rd w (getf RDMASK RDSHIFT w).
Definition set_rd dbg w v := dbg_guard dbg has_rd w (setf RDMASK RDSHIFT w v).
Definition get_shamt dbg w := dbg_guard dbg has_shamt w (getf SHAMTMASK SHAMTSHIFT w).
Definition set_shamt dbg w v := dbg_guard dbg has_shamt w (setf SHAMTMASK SHAMTSHIFT w v).

(** u_type.rs: OPMASK, IMMMASK, set_immediate, get_immediate *)
Definition u_set (w imm : Z) : Z :=
  Z.lor (Z.land w 0x00000FFF) (Z.land (shl32 imm 12) 0xFFFFF000).
Definition u_get (w : Z) : Z := shr32 (Z.land w 0xFFFFF000) 12.

(** b_type.rs: masks, set_immediate, get_immediate *)
Definition b_set (w imm : Z) : Z :=
  let s := shr32 imm 1 in
  Z.lor (Z.lor (Z.lor (Z.lor (Z.land w 0x01FFF07F)
    (shl32 (Z.land s 0x00000800) 20))
    (shr32 (Z.land s 0x00000400) 3))
    (shl32 (Z.land s 0x000003F0) 21))
    (shl32 (Z.land s 0x0000000F) 8).
Definition b_get (w : Z) : Z :=
  shl32 (Z.lor (Z.lor (Z.lor (Z.lor
    (Z.land (shr32 w 20) 0x00000800)
    (Z.land (shl32 w 3) 0x00000400))
    (Z.land (shr32 w 21) 0x000003F0))
    (Z.land (shr32 w 8) 0x0000000F))
    (wmul (Z.land (shr32 w 31) 1) 0xFFFFF800)) 1.

(** s_type.rs *)
Definition s_set (w imm : Z) : Z :=
  Z.lor (Z.lor (Z.land w 0x01FFF07F)
    (shl32 (Z.land imm 0x00000FE0) 20))
    (shl32 (Z.land imm 0x0000001F) 7).
Definition s_get (w : Z) : Z :=
  Z.lor (Z.lor (Z.land (shr32 w 20) 0x00000FE0)
    (Z.land (shr32 w 7) 0x0000001F))
    (wmul (Z.land (shr32 w 31) 1) 0xFFFFF000).

(** j_type.rs *)
Definition j_set (w imm : Z) : Z :=
  Z.lor (Z.lor (Z.lor (Z.lor (Z.land w 0x00000FFF)
    (shl32 (Z.land imm 0x00100000) 11))
    (shl32 (Z.land imm 0x000FF000) 0))
    (shl32 (Z.land imm 0x00000800) 9))
    (shl32 (Z.land imm 0x000007FE) 20).
Definition j_get (w : Z) : Z :=
  Z.lor (Z.lor (Z.lor (Z.lor
    (Z.land (shr32 w 11) 0x00100000)
    (Z.land (shr32 w 0) 0x000FF000))
    (Z.land (shr32 w 9) 0x00000800))
    (Z.land (shr32 w 20) 0x000007FE))
    (wmul (Z.land (shr32 w 31) 1) 0xFFF00000).

(** i_type.rs *)
Definition i_set (w imm : Z) : Z := Z.lor (Z.land w 0x000FFFFF) (shl32 imm 20).
Definition i_get (w : Z) : Z :=
  Z.lor (shr32 w 20) (wmul (Z.land (shr32 w 31) 1) 0xFFFFF000).

(** mod.rs:873-888 *)
Definition set_imm (dbg : bool) (w imm : Z) : option Z :=
  do t <- get_type w;
  match t with
  | TR => None
  | TI =>
      do f3 <- get_funct3 dbg w;
      if ((f3 =? 1) || (f3 =? 5)) && (get_opcode w =? 0x13)
      then set_shamt dbg w imm
      else Some (i_set w imm)
  | TS => Some (s_set w imm)
  | TB => Some (b_set w imm)
  | TU => Some (u_set w imm)
  | TJ => Some (j_set w imm)
  | TNONE => None
  end.

(** mod.rs:891-904 *)
Definition get_imm (dbg : bool) (w : Z) : option Z :=
  do t <- get_type w;
  match t with
  | TR => Some 0
  | TI =>
      do f3 <- get_funct3 dbg w;
      if ((f3 =? 1) || (f3 =? 5)) && (get_opcode w =? 0x13)
      then get_shamt dbg w
      else Some (i_get w)
  | TS => Some (s_get w)
  | TB => Some (b_get w)
  | TU => Some (u_get w)
  | TJ => Some (j_get w)
  | TNONE => Some 0
  end.

(** mod.rs:907-915; the triple is [(rs2, rs1, rd)] *)
Definition get_registers (dbg : bool) (w : Z) : option (Z * Z * Z) :=
  do t <- get_type w;
  match t with
  | TR =>
      do rs2 <- get_rs2 dbg w; do rs1 <- get_rs1 dbg w; do rd <- get_rd dbg w;
      Some (rs2, rs1, rd)
  | TI => do rs1 <- get_rs1 dbg w; do rd <- get_rd dbg w; Some (0, rs1, rd)
  | TS | TB => do rs2 <- get_rs2 dbg w; do rs1 <- get_rs1 dbg w; Some (rs2, rs1, 0)
  | TU | TJ => do rd <- get_rd dbg w; Some (0, 0, rd)
  | TNONE => Some (0, 0, 0)
  end.

(** mod.rs:918-1000 *)
Definition opid_r (f7 f3 : Z) : option rd_op :=
  if f7 =? 0x0 then
    if f3 =? 0 then Some RADD else if f3 =? 1 then Some RSLL
    else if f3 =? 2 then Some RSLT else if f3 =? 3 then Some RSLTU
    else if f3 =? 4 then Some RXOR else if f3 =? 5 then Some RSRL
    else if f3 =? 6 then Some ROR else if f3 =? 7 then Some RAND
    else None
  else if f7 =? 0x20 then
    if f3 =? 0 then Some RSUB else if f3 =? 5 then Some RSRA else None
  else if f7 =? 0x1 then
    if f3 =? 0 then Some RMUL else if f3 =? 1 then Some RMULH
    else if f3 =? 2 then Some RMULHSU else if f3 =? 3 then Some RMULHU
    else if f3 =? 4 then Some RDIV else if f3 =? 5 then Some RDIVU
    else if f3 =? 6 then Some RREM else if f3 =? 7 then Some RREMU
    else None
  else None.

Definition get_opid (dbg : bool) (w : Z) : option (rd_op * ram_op * pc_op) :=
  let opcode := get_opcode w in
  do t <- get_type w;
  match t with
  | TR =>
      do f7 <- get_funct7 dbg w; do f3 <- get_funct3 dbg w;
      do r <- opid_r f7 f3; Some (r, MNONE, PNONE)
  | TI =>
      do f3 <- get_funct3 dbg w;
      if opcode =? 0x13 then
        if f3 =? 0 then Some (RADDI, MNONE, PNONE)
        else if f3 =? 2 then Some (RSLTI, MNONE, PNONE)
        else if f3 =? 3 then Some (RSLTIU, MNONE, PNONE)
        else if f3 =? 4 then Some (RXORI, MNONE, PNONE)
        else if f3 =? 6 then Some (RORI, MNONE, PNONE)
        else if f3 =? 7 then Some (RANDI, MNONE, PNONE)
        else if f3 =? 1 then Some (RSLLI, MNONE, PNONE)
        else if f3 =? 5 then
          do f7 <- get_funct7 dbg w;
          if f7 =? 0x0 then Some (RSRLI, MNONE, PNONE)
          else if f7 =? 0x20 then Some (RSRAI, MNONE, PNONE)
          else None
        else None
      else if opcode =? 0x3 then
        if f3 =? 0 then Some (RLB, MNONE, PNONE)
        else if f3 =? 1 then Some (RLH, MNONE, PNONE)
        else if f3 =? 2 then Some (RLW, MNONE, PNONE)
        else if f3 =? 4 then Some (RLBU, MNONE, PNONE)
        else if f3 =? 5 then Some (RLHU, MNONE, PNONE)
        else None
      else if opcode =? 0x67 then Some (RJALR, MNONE, PJALR)
      else None
  | TS =>
      do f3 <- get_funct3 dbg w;
      if f3 =? 0 then Some (RNONE, MSB, PNONE)
      else if f3 =? 1 then Some (RNONE, MSH, PNONE)
      else if f3 =? 2 then Some (RNONE, MSW, PNONE)
      else None
  | TB =>
      do f3 <- get_funct3 dbg w;
      if f3 =? 0 then Some (RNONE, MNONE, PBEQ)
      else if f3 =? 1 then Some (RNONE, MNONE, PBNE)
      else if f3 =? 4 then Some (RNONE, MNONE, PBLT)
      else if f3 =? 5 then Some (RNONE, MNONE, PBGE)
      else if f3 =? 6 then Some (RNONE, MNONE, PBLTU)
      else if f3 =? 7 then Some (RNONE, MNONE, PBGEU)
      else None
  | TU =>
      if opcode =? 0x37 then Some (RLUI, MNONE, PNONE)
      else if opcode =? 0x17 then Some (RAUIPC, MNONE, PNONE)
      else None
  | TJ => Some (RJAL, MNONE, PJAL)
  | TNONE => Some (RNONE, MNONE, PNONE)
  end.

(** mod.rs:494-507 *)
Record parser := { p_imm : list Z; p_ins : list Z; p_raw : list Z }.
Definition parser_new : parser := {| p_imm := []; p_ins := []; p_raw := [] |}.

(** mod.rs:514-519 (all shifts are on [i64], no bit is lost) *)
Definition pack_fields (rs2 rs1 rd rdw memw pcw : Z) : Z :=
  Z.lor (Z.lor (Z.lor (Z.lor (Z.lor
    (i64 (Z.shiftl rs2 26)) (i64 (Z.shiftl rs1 21))) (i64 (Z.shiftl rd 16)))
    (i64 (Z.shiftl rdw 10))) (i64 (Z.shiftl memw 5))) pcw.

(** mod.rs:509-522; a panic leaves no parser *)
Definition parser_add (dbg : bool) (p : parser) (w : Z) : option parser :=
  do (rs2, rs1, rd) <- get_registers dbg w;
  do (rdw, memw, pcw) <- get_opid dbg w;
  do imm <- get_imm dbg w;
  Some {| p_imm := p_imm p ++ [imm];
          p_ins := p_ins p ++ [pack_fields rs2 rs1 rd (rd_id rdw) (ram_id memw) (pc_id pcw)];
          p_raw := p_raw p ++ [w] |}.

(** the loop of compiler/src/interpreter.rs:306-316 *)
Fixpoint parser_add_all (dbg : bool) (p : parser) (ws : list Z) : option parser :=
  match ws with
  | [] => Some p
  | w :: t => do p' <- parser_add dbg p w; parser_add_all dbg p' t
  end.

(** mod.rs:529-531 *)
Definition parser_get_raw (p : parser) (i : nat) : option Z := nth_error (p_raw p) i.

(** mod.rs:533-545; result [(imm, rs2, rs1, rd, rd_w, mem_w, pc_w)] *)
Definition parser_get (p : parser) (i : nat) : option (Z * Z * Z * Z * Z * Z * Z) :=
  do imm <- nth_error (p_imm p) i;
  do d <- nth_error (p_ins p) i;
  Some (imm, Z.land (Z.shiftr d 26) 0x1F, Z.land (Z.shiftr d 21) 0x1F,
        Z.land (Z.shiftr d 16) 0x1F, Z.land (Z.shiftr d 10) 0x3F,
        Z.land (Z.shiftr d 5) 0x1F, Z.land d 0x1F).
