(** * Facts about the operators of the translated text (helper lemmas) *)
Require Import ZArith List Bool Lia.
From Verif Require Import Rust.
Require Verif.Isa Verif.Bits Verif.EvalFacts Verif.ListFacts.
Require Verif.Word Verif.Codec Verif.EvalPlain Verif.DebugVM Verif.TextInstr Verif.TextDebug.
Import ListNotations.
Open Scope Z_scope.

(** closed comparisons *)
Ltac is_lit z := lazymatch z with Z0 => idtac | Zpos _ => idtac | Zneg _ => idtac end.
Ltac closed :=
  repeat match goal with
  | |- context [Z.leb ?a ?b] => is_lit a; is_lit b;
      let v := eval vm_compute in (Z.leb a b) in change (Z.leb a b) with v
  | |- context [Z.ltb ?a ?b] => is_lit a; is_lit b;
      let v := eval vm_compute in (Z.ltb a b) in change (Z.ltb a b) with v
  | |- context [Z.eqb ?a ?b] => is_lit a; is_lit b;
      let v := eval vm_compute in (Z.eqb a b) in change (Z.eqb a b) with v
  | |- context [Z.modulo ?a ?b] => is_lit a; is_lit b;
      let v := eval vm_compute in (Z.modulo a b) in change (Z.modulo a b) with v
  | |- context [Z.sub ?a ?b] => is_lit a; is_lit b;
      let v := eval vm_compute in (Z.sub a b) in change (Z.sub a b) with v
  | |- context [Z.lxor ?a ?b] => is_lit a; is_lit b;
      let v := eval vm_compute in (Z.lxor a b) in change (Z.lxor a b) with v
  end.
Ltac ops := cbv beta iota zeta delta
  [Rust.shr Rust.shl Rust.amount Rust.band Rust.bor Rust.bxor Rust.val Rust.lit Rust.cast
   Rust.widens Rust.least Rust.largest Rust.bits Rust.wrap Rust.is_signed Rust.card Rust.eq Rust.ne
   Rust.lt Rust.le Rust.gt Rust.ge Rust.wrapping_add Rust.wrapping_sub Rust.wrapping_mul
   Rust.wrapping_shl Rust.wrapping_shr Rust.min_of Rust.max_of Rust.bits_of Rust.cast_bool
   Rust.add Rust.sub Rust.mul Rust.checked Rust.fits Rust.div Rust.rem Rust.div_ok
   andb orb negb].
Ltac run := ops; closed; ops; closed; ops.

Notation word := Verif.Isa.word.

Lemma wrap_i32 : forall w, word w -> wrap I32 w = Word.i32 w.
Proof.
  intros w H. unfold Isa.word in H; change (2 ^ 32) with 4294967296 in H. cbv [wrap is_signed card largest Word.i32].
  rewrite Z.mod_small by lia.
  destruct (Z.leb_spec w 2147483647); destruct (Z.ltb_spec w 2147483648); lia.
Qed.
Lemma wrap_i64 : forall z, wrap I64 z = Word.i64 z.
Proof.
  intro z. cbv [wrap is_signed card largest Word.i64].
  destruct (Z.leb_spec (z mod 18446744073709551616) 9223372036854775807);
  destruct (Z.ltb_spec (z mod 18446744073709551616) 9223372036854775808); lia.
Qed.

Lemma bit_bound : forall a, 0 <= Z.land a 1 <= 1.
Proof.
  intro a. assert (E : Z.land a 1 = a mod 2) by (apply (Z.land_ones a 1); lia).
  rewrite E. pose proof (Z.mod_pos_bound a 2). lia.
Qed.
(** a sign bit times a mask never overflows *)
Lemma mul_bit : forall p a m, 0 <= m < 4294967296 ->
  mul p (Int (t:=U32) (Z.land a 1)) (Int m) = Some (Int (Word.wmul (Z.land a 1) m)).
Proof.
  intros p a m Hm. pose proof (bit_bound a) as B.
  unfold mul, checked, fits, val, Word.wmul, Word.u32, least, largest.
  rewrite (proj2 (Z.leb_le _ _)) by nia. rewrite (proj2 (Z.leb_le _ _)) by nia.
  cbn [andb]. rewrite Z.mod_small by nia. reflexivity.
Qed.

(** ** Conversions between the types of the text and those of the model *)
Module T := Verif.TextInstr.

Definition type_of (t : Codec.ity) : T.Type_ :=
  match t with
  | Codec.TNONE => T.Type_NONE | Codec.TR => T.Type_R | Codec.TI => T.Type_I
  | Codec.TS => T.Type_S | Codec.TB => T.Type_B | Codec.TU => T.Type_U | Codec.TJ => T.Type_J
  end.
Definition ram_of (o : Codec.ram_op) : T.RAM_UPDATE :=
  match o with
  | Codec.MNONE => T.RAM_UPDATE_NONE | Codec.MSB => T.RAM_UPDATE_SB
  | Codec.MSH => T.RAM_UPDATE_SH | Codec.MSW => T.RAM_UPDATE_SW
  end.
Definition pc_of (o : Codec.pc_op) : T.PC_UPDATE :=
  match o with
  | Codec.PNONE => T.PC_UPDATE_NONE | Codec.PJAL => T.PC_UPDATE_JAL
  | Codec.PJALR => T.PC_UPDATE_JALR | Codec.PBEQ => T.PC_UPDATE_BEQ
  | Codec.PBNE => T.PC_UPDATE_BNE | Codec.PBLT => T.PC_UPDATE_BLT
  | Codec.PBGE => T.PC_UPDATE_BGE | Codec.PBLTU => T.PC_UPDATE_BLTU
  | Codec.PBGEU => T.PC_UPDATE_BGEU
  end.
Definition rd_of (o : Codec.rd_op) : T.RD_UPDATE :=
  match o with
  | Codec.RNONE => T.RD_UPDATE_NONE
  | Codec.RLUI => T.RD_UPDATE_LUI
  | Codec.RAUIPC => T.RD_UPDATE_AUIPC
  | Codec.RADDI => T.RD_UPDATE_ADDI
  | Codec.RSLTI => T.RD_UPDATE_SLTI
  | Codec.RSLTIU => T.RD_UPDATE_SLTIU
  | Codec.RXORI => T.RD_UPDATE_XORI
  | Codec.RORI => T.RD_UPDATE_ORI
  | Codec.RANDI => T.RD_UPDATE_ANDI
  | Codec.RSLLI => T.RD_UPDATE_SLLI
  | Codec.RSRLI => T.RD_UPDATE_SRLI
  | Codec.RSRAI => T.RD_UPDATE_SRAI
  | Codec.RADD => T.RD_UPDATE_ADD
  | Codec.RSUB => T.RD_UPDATE_SUB
  | Codec.RSLL => T.RD_UPDATE_SLL
  | Codec.RSLT => T.RD_UPDATE_SLT
  | Codec.RSLTU => T.RD_UPDATE_SLTU
  | Codec.RXOR => T.RD_UPDATE_XOR
  | Codec.RSRL => T.RD_UPDATE_SRL
  | Codec.RSRA => T.RD_UPDATE_SRA
  | Codec.ROR => T.RD_UPDATE_OR
  | Codec.RAND => T.RD_UPDATE_AND
  | Codec.RLB => T.RD_UPDATE_LB
  | Codec.RLBU => T.RD_UPDATE_LBU
  | Codec.RLH => T.RD_UPDATE_LH
  | Codec.RLHU => T.RD_UPDATE_LHU
  | Codec.RLW => T.RD_UPDATE_LW
  | Codec.RJAL => T.RD_UPDATE_JAL
  | Codec.RJALR => T.RD_UPDATE_JALR
  | Codec.RMUL => T.RD_UPDATE_MUL
  | Codec.RMULH => T.RD_UPDATE_MULH
  | Codec.RMULHSU => T.RD_UPDATE_MULHSU
  | Codec.RMULHU => T.RD_UPDATE_MULHU
  | Codec.RDIV => T.RD_UPDATE_DIV
  | Codec.RDIVU => T.RD_UPDATE_DIVU
  | Codec.RREM => T.RD_UPDATE_REM
  | Codec.RREMU => T.RD_UPDATE_REMU
  end.
Definition ins (w : Z) : T.Instruction := T.mk_Instruction (Int w).
Definition regs_of (x : Z * Z * Z) : int U32 * int U32 * int U32 :=
  let '(a, b, c) := x in (Int a, Int b, Int c).
Definition opid_of (x : Codec.rd_op * Codec.ram_op * Codec.pc_op) :
  T.RD_UPDATE * T.RAM_UPDATE * T.PC_UPDATE :=
  let '(a, b, c) := x in (rd_of a, ram_of b, pc_of c).

(** ** The accessors *)
Ltac txt := cbv beta iota zeta delta
  [T.Instruction_0 T.instructions_OPCODEMASK T.instructions_OPCODESHIFT
   T.instructions_FUNCT3MASK T.instructions_FUNCT3SHIFT
   T.instructions_FUNCT7MASK T.instructions_FUNCT7SHIFT
   T.instructions_RS1MASK T.instructions_RS1SHIFT T.instructions_RS2MASK T.instructions_RS2SHIFT
   T.instructions_RDMASK T.instructions_RDSHIFT T.instructions_SHAMTMASK T.instructions_SHAMTSHIFT
   ins].
Lemma get_opcode_eq : forall p w,
  T.Instruction_get_opcode p (ins w) = Some (Int (Codec.get_opcode w)).
Proof. intros. unfold T.Instruction_get_opcode. txt. run. reflexivity. Qed.

Lemma get_type_eq : forall p w,
  T.Instruction_get_type p (ins w) = option_map type_of (Codec.get_type w).
Proof.
  intros. unfold T.Instruction_get_type. rewrite get_opcode_eq. cbv beta iota zeta.
  unfold Codec.get_type, Rust.eq, Rust.lit, Rust.val. cbv zeta.
  repeat match goal with |- context [if ?b then _ else _] => destruct b end; reflexivity.
Qed.

Lemma guard_eq : forall {A B} p w (ok : Codec.ity -> bool) (m : T.Type_ -> option unit)
    (f : A -> B) (r : A) (k : option B),
  (forall t, m (type_of t) = if ok t then Some tt else None) ->
  k = Some (f r) ->
  match (if debug_assertions p
         then match T.Instruction_get_type p (ins w) with Some t => m t | None => None end
         else Some tt) with
  | Some _ => k | None => None end
  = option_map f (Codec.dbg_guard (debug_assertions p) ok w r).
Proof.
  intros A B p w ok m f r k M K. unfold Codec.dbg_guard. destruct (debug_assertions p).
  - rewrite get_type_eq. destruct (Codec.get_type w); [ cbn | reflexivity ].
    rewrite M. destruct (ok i); cbn; auto.
  - cbn. auto.
Qed.
Ltac acc f := intros; unfold f; apply guard_eq; [ intros []; reflexivity | txt; run; reflexivity ].
Lemma get_funct3_eq : forall p w, T.Instruction_get_funct3 p (ins w)
  = option_map (@Int U32) (Codec.get_funct3 (debug_assertions p) w).
Proof. acc T.Instruction_get_funct3. Qed.
Lemma set_funct3_eq : forall p w v, T.Instruction_set_funct3 p (ins w) (Int v)
  = option_map ins (Codec.set_funct3 (debug_assertions p) w v).
Proof. acc T.Instruction_set_funct3. Qed.
Lemma get_funct7_eq : forall p w, T.Instruction_get_funct7 p (ins w)
  = option_map (@Int U32) (Codec.get_funct7 (debug_assertions p) w).
Proof. acc T.Instruction_get_funct7. Qed.
Lemma set_funct7_eq : forall p w v, T.Instruction_set_funct7 p (ins w) (Int v)
  = option_map ins (Codec.set_funct7 (debug_assertions p) w v).
Proof. acc T.Instruction_set_funct7. Qed.
Lemma get_rs1_eq : forall p w, T.Instruction_get_rs1 p (ins w)
  = option_map (@Int U32) (Codec.get_rs1 (debug_assertions p) w).
Proof. acc T.Instruction_get_rs1. Qed.
Lemma set_rs1_eq : forall p w v, T.Instruction_set_rs1 p (ins w) (Int v)
  = option_map ins (Codec.set_rs1 (debug_assertions p) w v).
Proof. acc T.Instruction_set_rs1. Qed.
Lemma get_rs2_eq : forall p w, T.Instruction_get_rs2 p (ins w)
  = option_map (@Int U32) (Codec.get_rs2 (debug_assertions p) w).
Proof. acc T.Instruction_get_rs2. Qed.
Lemma set_rs2_eq : forall p w v, T.Instruction_set_rs2 p (ins w) (Int v)
  = option_map ins (Codec.set_rs2 (debug_assertions p) w v).
Proof. acc T.Instruction_set_rs2. Qed.
Lemma get_rd_eq : forall p w, T.Instruction_get_rd p (ins w)
  = option_map (@Int U32) (Codec.get_rd (debug_assertions p) w).
Proof. acc T.Instruction_get_rd. Qed.
Lemma set_rd_eq : forall p w v, T.Instruction_set_rd p (ins w) (Int v)
  = option_map ins (Codec.set_rd (debug_assertions p) w v).
Proof. acc T.Instruction_set_rd. Qed.
Lemma get_shamt_eq : forall p w, T.Instruction_get_shamt p (ins w)
  = option_map (@Int U32) (Codec.get_shamt (debug_assertions p) w).
Proof. acc T.Instruction_get_shamt. Qed.
Lemma set_shamt_eq : forall p w v, T.Instruction_set_shamt p (ins w) (Int v)
  = option_map ins (Codec.set_shamt (debug_assertions p) w v).
Proof. acc T.Instruction_set_shamt. Qed.
Lemma set_opcode_eq : forall p w v, T.Instruction_set_opcode p (ins w) (Int v)
  = Some (ins (Codec.set_opcode w v)).
Proof. intros. unfold T.Instruction_set_opcode. txt. run. reflexivity. Qed.

(** ** Immediates *)
Ltac imm_txt := cbv beta iota zeta delta
  [T.b_type_IMMMASK12 T.b_type_IMMMASK11 T.b_type_IMMMASK10 T.b_type_IMMMASK4 T.b_type_OPMASK T.b_type_IMMSEXTMASK T.b_type_IMMSHIFT12 T.b_type_IMMSHIFT11 T.b_type_IMMSHIFT10 T.b_type_IMMSHIFT4 T.i_type_IMMSHIFT T.i_type_OPMASK T.i_type_IMMSEXTMASK T.j_type_IMMMASK20 T.j_type_IMMMASK19 T.j_type_IMMMASK11 T.j_type_IMMMASK10 T.j_type_OPMASK T.j_type_IMMSEXTMASK T.j_type_IMMSHIFT20 T.j_type_IMMSHIFT19 T.j_type_IMMSHIFT11 T.j_type_IMMSHIFT10 T.s_type_IMMMASK11 T.s_type_IMMMASK4 T.s_type_OPMASK T.s_type_IMMSHIFT11 T.s_type_IMMSHIFT4 T.s_type_IMMSEXTMASK T.u_type_OPMASK T.u_type_IMMMASK
   T.Instruction_0 ins].
Lemma i_set_eq : forall p w v, T.i_type_set_immediate p (ins w) (Int v) = Some (ins (Codec.i_set w v)).
Proof. intros. unfold T.i_type_set_immediate. imm_txt. run. reflexivity. Qed.
Lemma i_get_eq : forall p w, T.i_type_get_immediate p (Int w) = Some (Int (Codec.i_get w)).
Proof.
  intros. unfold T.i_type_get_immediate. imm_txt.
  cbv beta iota zeta delta [Rust.shr Rust.shl Rust.amount Rust.lit Rust.val Rust.bits Rust.band].
  closed. cbv beta iota zeta delta [andb]. 
  try (rewrite mul_bit by lia). run. reflexivity.
Qed.
Lemma s_set_eq : forall p w v, T.s_type_set_immediate p (ins w) (Int v) = Some (ins (Codec.s_set w v)).
Proof. intros. unfold T.s_type_set_immediate. imm_txt. run. reflexivity. Qed.
Lemma s_get_eq : forall p w, T.s_type_get_immediate p (Int w) = Some (Int (Codec.s_get w)).
Proof.
  intros. unfold T.s_type_get_immediate. imm_txt.
  cbv beta iota zeta delta [Rust.shr Rust.shl Rust.amount Rust.lit Rust.val Rust.bits Rust.band].
  closed. cbv beta iota zeta delta [andb]. 
  try (rewrite mul_bit by lia). run. reflexivity.
Qed.
Lemma b_set_eq : forall p w v, T.b_type_set_immediate p (ins w) (Int v) = Some (ins (Codec.b_set w v)).
Proof. intros. unfold T.b_type_set_immediate. imm_txt. run. reflexivity. Qed.
Lemma b_get_eq : forall p w, T.b_type_get_immediate p (Int w) = Some (Int (Codec.b_get w)).
Proof.
  intros. unfold T.b_type_get_immediate. imm_txt.
  cbv beta iota zeta delta [Rust.shr Rust.shl Rust.amount Rust.lit Rust.val Rust.bits Rust.band].
  closed. cbv beta iota zeta delta [andb]. 
  try (rewrite mul_bit by lia). run. reflexivity.
Qed.
Lemma u_set_eq : forall p w v, T.u_type_set_immediate p (ins w) (Int v) = Some (ins (Codec.u_set w v)).
Proof. intros. unfold T.u_type_set_immediate. imm_txt. run. reflexivity. Qed.
Lemma u_get_eq : forall p w, T.u_type_get_immediate p (Int w) = Some (Int (Codec.u_get w)).
Proof.
  intros. unfold T.u_type_get_immediate. imm_txt.
  cbv beta iota zeta delta [Rust.shr Rust.shl Rust.amount Rust.lit Rust.val Rust.bits Rust.band].
  closed. cbv beta iota zeta delta [andb]. 
  try (rewrite mul_bit by lia). run. reflexivity.
Qed.
Lemma j_set_eq : forall p w v, T.j_type_set_immediate p (ins w) (Int v) = Some (ins (Codec.j_set w v)).
Proof. intros. unfold T.j_type_set_immediate. imm_txt. run. reflexivity. Qed.
Lemma j_get_eq : forall p w, T.j_type_get_immediate p (Int w) = Some (Int (Codec.j_get w)).
Proof.
  intros. unfold T.j_type_get_immediate. imm_txt.
  cbv beta iota zeta delta [Rust.shr Rust.shl Rust.amount Rust.lit Rust.val Rust.bits Rust.band].
  closed. cbv beta iota zeta delta [andb]. 
  try (rewrite mul_bit by lia). run. reflexivity.
Qed.

Lemma get_imm_eq : forall p w, T.Instruction_get_imm p (ins w)
  = option_map (@Int U32) (Codec.get_imm (debug_assertions p) w).
Proof.
  intros. unfold T.Instruction_get_imm, Codec.get_imm.
  rewrite get_type_eq, get_funct3_eq, get_opcode_eq, get_shamt_eq.
  change (T.Instruction_0 (ins w)) with (@Int U32 w).
  rewrite i_get_eq, s_get_eq, b_get_eq, u_get_eq, j_get_eq.
  destruct (Codec.get_type w) as [ [] | ]; try reflexivity.
  cbn [option_map type_of].
  destruct (Codec.get_funct3 (debug_assertions p) w) as [ f | ]; [ | reflexivity ].
  cbn [option_map]. unfold Rust.eq, Rust.lit, Rust.val.
  destruct (f =? 1), (f =? 5), (Codec.get_opcode w =? 19); try reflexivity;
  cbn [andb orb]; destruct (Codec.get_shamt (debug_assertions p) w); reflexivity.
Qed.
Lemma set_imm_eq : forall p w v, T.Instruction_set_imm p (ins w) (Int v)
  = option_map ins (Codec.set_imm (debug_assertions p) w v).
Proof.
  intros. unfold T.Instruction_set_imm, Codec.set_imm.
  rewrite get_type_eq, get_funct3_eq, get_opcode_eq.
  change (cast U32 (@Int U32 v)) with (@Int U32 v).
  rewrite set_shamt_eq, i_set_eq, s_set_eq, b_set_eq, u_set_eq, j_set_eq.
  destruct (Codec.get_type w) as [ [] | ]; try reflexivity.
  cbn [option_map type_of].
  destruct (Codec.get_funct3 (debug_assertions p) w) as [ f | ]; [ | reflexivity ].
  cbn [option_map]. unfold Rust.eq, Rust.lit, Rust.val.
  destruct (f =? 1), (f =? 5), (Codec.get_opcode w =? 19); try reflexivity;
  cbn [andb orb]; destruct (Codec.set_shamt (debug_assertions p) w v); reflexivity.
Qed.
Lemma get_registers_eq : forall p w, T.Instruction_get_registers p (ins w)
  = option_map regs_of (Codec.get_registers (debug_assertions p) w).
Proof.
  intros. unfold T.Instruction_get_registers, Codec.get_registers.
  rewrite get_type_eq, get_rs1_eq, get_rs2_eq, get_rd_eq.
  destruct (Codec.get_type w) as [ [] | ]; try reflexivity; cbn [option_map type_of];
  destruct (Codec.get_rs1 (debug_assertions p) w), (Codec.get_rs2 (debug_assertions p) w),
    (Codec.get_rd (debug_assertions p) w); reflexivity.
Qed.
Lemma get_opid_eq : forall p w, T.Instruction_get_opid p (ins w)
  = option_map opid_of (Codec.get_opid (debug_assertions p) w).
Proof.
  intros. unfold T.Instruction_get_opid, Codec.get_opid.
  rewrite get_type_eq, get_funct3_eq, get_funct7_eq, get_opcode_eq. cbv beta iota zeta.
  unfold Rust.eq, Rust.lit, Rust.val.
  destruct (Codec.get_type w) as [ [] | ]; try reflexivity; cbn [option_map type_of].
  - destruct (Codec.get_funct7 (debug_assertions p) w) as [ g | ]; [ | reflexivity ].
    destruct (Codec.get_funct3 (debug_assertions p) w) as [ f | ]; [ | reflexivity ].
    cbn [option_map]. unfold Codec.opid_r.
    destruct (Z.eqb_spec g 0); [ subst g | destruct (Z.eqb_spec g 32); [ subst g | destruct (Z.eqb_spec g 1); [ subst g | ] ] ];
    closed; cbn [andb];
    repeat match goal with |- context [f =? ?k] => destruct (Z.eqb_spec f k); [ subst f; closed; reflexivity | ] end;
    reflexivity.
  - destruct (Codec.get_funct3 (debug_assertions p) w) as [ f | ]; [ | reflexivity ].
    cbn [option_map].
    destruct (Codec.get_funct7 (debug_assertions p) w) as [ g | ]; cbn [option_map];
    repeat match goal with |- context [if ?b then _ else _] => destruct b end; reflexivity.
  - destruct (Codec.get_funct3 (debug_assertions p) w) as [ f | ]; [ | reflexivity ].
    cbn [option_map].
    repeat match goal with |- context [if ?b then _ else _] => destruct b end; reflexivity.
  - destruct (Codec.get_funct3 (debug_assertions p) w) as [ f | ]; [ | reflexivity ].
    cbn [option_map].
    repeat match goal with |- context [if ?b then _ else _] => destruct b end; reflexivity.
  - repeat match goal with |- context [if ?b then _ else _] => destruct b end; reflexivity.
Qed.

(** ** Plain evaluation *)
Lemma sext_eq : forall p x b, 0 < b < 32 ->
  T.instructions_sext p (Int x) (Int b) = Some (Int (EvalPlain.sext x b)).
Proof.
  intros p x b Hb. unfold T.instructions_sext.
  assert (S : sub p (bits_of U32) (@Int U32 b) = Some (Int (32 - b))).
  { unfold sub, checked, fits, bits_of, val, bits, least, largest.
    rewrite (proj2 (Z.leb_le _ _)) by lia. rewrite (proj2 (Z.leb_le _ _)) by lia. reflexivity. }
  assert (A : forall k : Z, 0 < k < 32 -> amount U32 p (@Int U32 k) = Some k).
  { intros k Hk. unfold amount, val, bits.
    rewrite (proj2 (Z.leb_le _ _)) by lia. rewrite (proj2 (Z.ltb_lt _ _)) by lia. reflexivity. }
  rewrite S. unfold shl, shr. rewrite !(A b) by lia. rewrite (A (32 - b)) by lia.
  cbv beta iota delta [band val lit].
  rewrite mul_bit.
  - reflexivity.
  - cbv [wrap is_signed card].
    set (m := Z.shiftl 4294967295 b mod 4294967296).
    assert (E : Z.land 4294967295 m = m mod 4294967296)
      by (rewrite Z.land_comm; apply (Z.land_ones m 32); lia).
    rewrite E. apply Z.mod_pos_bound. lia.
Qed.

Lemma ram_id_eq : forall p o, T.RAM_UPDATE_id p (ram_of o) = Some (Int (Codec.ram_id o)).
Proof. intros p []; reflexivity. Qed.
Lemma pc_id_eq : forall p o, T.PC_UPDATE_id p (pc_of o) = Some (Int (Codec.pc_id o)).
Proof. intros p []; reflexivity. Qed.
Lemma rd_id_eq : forall p o, T.RD_UPDATE_id p (rd_of o) = Some (Int (Codec.rd_id o)).
Proof. intros p []; reflexivity. Qed.

Lemma ram_eval_eq : forall p o a b c,
  T.RAM_UPDATE_eval_plain p (ram_of o) (Int a) (Int b) (Int c)
  = Some (Int (EvalPlain.ram_eval o a b c)).
Proof.
  intros p [] a b c; cbn [ram_of T.RAM_UPDATE_eval_plain EvalPlain.ram_eval]; try reflexivity;
  run; repeat match goal with |- context [if ?b then _ else _] => destruct b end; reflexivity.
Qed.

Lemma cast_i32 : forall w, word w -> cast I32 (@Int U32 w) = Int (Word.i32 w).
Proof. intros w H. rewrite <- (wrap_i32 w H). reflexivity. Qed.

Lemma pc_eval_eq : forall p o imm a b c, word a -> word b ->
  T.PC_UPDATE_eval_plain p (pc_of o) (Int imm) (Int a) (Int b) (Int c)
  = Some (Int (EvalPlain.pc_eval o imm a b c)).
Proof.
  intros p [] imm a b c Ha Hb; cbn [pc_of T.PC_UPDATE_eval_plain EvalPlain.pc_eval]; try reflexivity;
  rewrite ?cast_i32 by assumption; run;
  repeat match goal with |- context [if ?b then _ else _] => destruct b end; reflexivity.
Qed.

Lemma low5 : forall a, 0 <= Z.land a 31 < 32.
Proof.
  intro a. assert (E : Z.land a 31 = a mod 32) by (apply (Z.land_ones a 5); lia).
  rewrite E. apply Z.mod_pos_bound. lia.
Qed.
Lemma low5_mod : forall a, Z.land a 31 mod 32 = Z.land a 31.
Proof. intro a. apply Z.mod_small. apply low5. Qed.
Lemma low5_amount : forall t s p a, bits t = 32 -> amount t p (@Int s (Z.land a 31)) = Some (Z.land a 31).
Proof.
  intros t s p a B. pose proof (low5 a). unfold amount, val. rewrite B.
  rewrite (proj2 (Z.leb_le _ _)) by lia. rewrite (proj2 (Z.ltb_lt _ _)) by lia. reflexivity.
Qed.

Lemma i32_zero : forall w, word w -> (Word.i32 w =? 0) = (w =? 0).
Proof.
  intros w H. unfold Isa.word in H; change (2 ^ 32) with 4294967296 in H. unfold Word.i32.
  destruct (Z.ltb_spec w 2147483648); [ reflexivity | ].
  rewrite (proj2 (Z.eqb_neq w 0)) by lia. apply Z.eqb_neq. lia.
Qed.

Lemma rd_eval_eq : forall p o imm a b c r, word imm -> word a -> word b ->
  T.RD_UPDATE_eval_plain p (rd_of o) (Int imm) (Int a) (Int b) (Int c) (Int r)
  = option_map (@Int U32) (EvalPlain.rd_eval o imm a b c r).
Proof.
  intros p [] imm a b c r Hi Ha Hb; cbn [rd_of T.RD_UPDATE_eval_plain EvalPlain.rd_eval option_map];
  try reflexivity; rewrite ?cast_i32 by assumption.
  all: rewrite ?sext_eq by lia.
  all: try reflexivity.
  all: unfold wrapping_shl, wrapping_shr, shr, band, lit, val;
    rewrite ?low5_amount by reflexivity;
    change (bits U32) with 32; change (bits I32) with 32; rewrite ?low5_mod.
  all: try reflexivity.
  all: unfold wrapping_mul; rewrite ?wrap_i64.
  all: try reflexivity.
  all: unfold div, rem, div_ok, is_signed, Rust.eq, Rust.lt, val, min_of, least, cast_bool; rewrite ?i32_zero by assumption.
  all: rewrite ?sext_eq by lia.
  all: repeat match goal with
    | |- context [Z.ltb ?x ?y] => destruct (Z.ltb x y)
    | |- context [Z.eqb ?x ?y] => destruct (Z.eqb x y)
    end; reflexivity.
Qed.

(** ** The parser *)
Definition parser_of (q : Codec.parser) : T.InstructionsParser :=
  T.mk_InstructionsParser (map (@Int I64) (Codec.p_imm q)) (map (@Int I64) (Codec.p_ins q))
    (map ins (Codec.p_raw q)).

Lemma rd_disc : forall o, T.RD_UPDATE_discriminant (rd_of o) = Int (Codec.rd_id o).
Proof. intros []; reflexivity. Qed.
Lemma ram_disc : forall o, T.RAM_UPDATE_discriminant (ram_of o) = Int (Codec.ram_id o).
Proof. intros []; reflexivity. Qed.
Lemma pc_disc : forall o, T.PC_UPDATE_discriminant (pc_of o) = Int (Codec.pc_id o).
Proof. intros []; reflexivity. Qed.

Lemma parser_add_eq : forall p q w, T.InstructionsParser_add p (parser_of q) (ins w)
  = option_map parser_of (Codec.parser_add (debug_assertions p) q w).
Proof.
  intros. unfold T.InstructionsParser_add, Codec.parser_add.
  rewrite get_registers_eq, get_opid_eq, get_imm_eq.
  destruct (Codec.get_registers (debug_assertions p) w) as [ [[rs2 rs1] rd] | ]; [ | reflexivity ].
  destruct (Codec.get_opid (debug_assertions p) w) as [ [[o1 o2] o3] | ]; [ | reflexivity ].
  destruct (Codec.get_imm (debug_assertions p) w) as [ im | ]; [ | reflexivity ].
  cbn [option_map regs_of opid_of].
  rewrite rd_disc, ram_disc, pc_disc.
  cbv beta iota zeta delta [shl amount lit val cast widens least largest bits].
  closed. cbv beta iota delta [andb]. rewrite !wrap_i64.
  cbn [T.set_InstructionsParser_imm T.set_InstructionsParser_instructions
       T.set_InstructionsParser_instructions_raw parser_of T.InstructionsParser_imm
       T.InstructionsParser_instructions T.InstructionsParser_instructions_raw].
  unfold push, parser_of. cbn [Codec.p_imm Codec.p_ins Codec.p_raw]. rewrite !map_app. reflexivity.
Qed.

Lemma index_map : forall {A B} (f : A -> B) l i,
  index (map f l) (Int (Z.of_nat i)) = option_map f (nth_error l i).
Proof. intros. unfold index, val. rewrite Nat2Z.id. apply nth_error_map. Qed.

Lemma parser_get_raw_eq : forall p q i, T.InstructionsParser_get_raw p (parser_of q) (Int (Z.of_nat i))
  = option_map ins (Codec.parser_get_raw q i).
Proof.
  intros. unfold T.InstructionsParser_get_raw, parser_of, Codec.parser_get_raw.
  cbn [T.InstructionsParser_instructions_raw]. rewrite index_map.
  destruct (nth_error (Codec.p_raw q) i); reflexivity.
Qed.

Definition seven (x : Z * Z * Z * Z * Z * Z * Z) :
    int I64 * int I64 * int I64 * int I64 * int I64 * int I64 * int I64 :=
  let '(a, b, c, d, e, f, g) := x in (Int a, Int b, Int c, Int d, Int e, Int f, Int g).
Lemma parser_get_eq : forall p q i, T.InstructionsParser_get p (parser_of q) (Int (Z.of_nat i))
  = option_map seven (Codec.parser_get q i).
Proof.
  intros. unfold T.InstructionsParser_get, parser_of, Codec.parser_get.
  cbn [T.InstructionsParser_imm T.InstructionsParser_instructions].
  rewrite !index_map. unfold gt, len, val. rewrite map_length.
  destruct (nth_error (Codec.p_imm q) i) as [ im | ] eqn:E.
  - assert (L : (i < length (Codec.p_imm q))%nat) by (apply nth_error_Some; congruence).
    rewrite (proj2 (Z.gtb_lt _ _)) by lia.
    destruct (nth_error (Codec.p_ins q) i) as [ d | ]; [ | reflexivity ].
    cbn [option_map]. run. reflexivity.
  - apply nth_error_None in E.
    replace (Z.of_nat (length (Codec.p_imm q)) >? Z.of_nat i) with false; [ reflexivity | ].
    symmetry. rewrite Z.gtb_ltb. apply Z.ltb_ge. lia.
Qed.

(** ** The plaintext machine *)
Module D := Verif.TextDebug.
Module M := Verif.DebugVM.
Definition dvm_of (s : M.dvm) : D.InterpreterDebug :=
  let r := M.drom s in let l := M.lat s in let m := map (@Int U32) in
  D.mk_InterpreterDebug (Int (M.ram_size s)) (Int (M.rom_size s)) (Int (M.dpc s))
    (m (M.imm_rom r)) (m (M.rs1_rom r)) (m (M.rs2_rom r)) (m (M.rd_rom r)) (m (M.rdu_rom r))
    (m (M.mu_rom r)) (m (M.pcu_rom r)) (m (M.dregs s)) (m (M.dram s))
    (Int (M.ram_addr l)) (Int (M.imm l)) (Int (M.rs1_val l)) (Int (M.rs2_val l)) (Int (M.ram_val l))
    (Int (M.rd_val l)) (Int (M.rs1_addr l)) (Int (M.rs2_addr l)) (Int (M.rd_addr l)) (Int (M.rdu l))
    (Int (M.pcu l)) (Int (M.mu l)).
Ltac flds := cbn beta iota zeta delta [dvm_of M.with_lat M.ram_size M.rom_size M.dpc M.drom M.dregs M.dram M.lat
   M.imm_rom M.rs1_rom M.rs2_rom M.rd_rom M.rdu_rom M.mu_rom M.pcu_rom
   M.ram_addr M.imm M.rs1_val M.rs2_val M.ram_val M.rd_val M.rs1_addr M.rs2_addr M.rd_addr M.rdu M.pcu M.mu
   D.InterpreterDebug_ram_size D.set_InterpreterDebug_ram_size
   D.InterpreterDebug_rom_size D.set_InterpreterDebug_rom_size
   D.InterpreterDebug_pc D.set_InterpreterDebug_pc
   D.InterpreterDebug_imm_rom D.set_InterpreterDebug_imm_rom
   D.InterpreterDebug_rs1_rom D.set_InterpreterDebug_rs1_rom
   D.InterpreterDebug_rs2_rom D.set_InterpreterDebug_rs2_rom
   D.InterpreterDebug_rd_rom D.set_InterpreterDebug_rd_rom
   D.InterpreterDebug_rdu_rom D.set_InterpreterDebug_rdu_rom
   D.InterpreterDebug_mu_rom D.set_InterpreterDebug_mu_rom
   D.InterpreterDebug_pcu_rom D.set_InterpreterDebug_pcu_rom
   D.InterpreterDebug_registers D.set_InterpreterDebug_registers
   D.InterpreterDebug_ram D.set_InterpreterDebug_ram
   D.InterpreterDebug_ram_addr D.set_InterpreterDebug_ram_addr
   D.InterpreterDebug_imm D.set_InterpreterDebug_imm
   D.InterpreterDebug_rs1_val D.set_InterpreterDebug_rs1_val
   D.InterpreterDebug_rs2_val D.set_InterpreterDebug_rs2_val
   D.InterpreterDebug_ram_val D.set_InterpreterDebug_ram_val
   D.InterpreterDebug_rd_val D.set_InterpreterDebug_rd_val
   D.InterpreterDebug_rs1_addr D.set_InterpreterDebug_rs1_addr
   D.InterpreterDebug_rs2_addr D.set_InterpreterDebug_rs2_addr
   D.InterpreterDebug_rd_addr D.set_InterpreterDebug_rd_addr
   D.InterpreterDebug_rdu D.set_InterpreterDebug_rdu
   D.InterpreterDebug_pcu D.set_InterpreterDebug_pcu
   D.InterpreterDebug_mu D.set_InterpreterDebug_mu].

Lemma map_repeat : forall {A B} (f : A -> B) x n, map f (repeat x n) = repeat (f x) n.
Proof. intros. induction n; cbn; congruence. Qed.
Lemma dvm_new_eq : forall p a b,
  D.InterpreterDebug_new p (Int (Z.of_nat a)) (Int (Z.of_nat b)) = Some (dvm_of (M.dvm_new a b)).
Proof.
  intros. unfold D.InterpreterDebug_new, dvm_of, M.dvm_new, filled, lit, val. flds.
  rewrite !Nat2Z.id. cbn [Z.to_nat]. change (Pos.to_nat 32) with 32%nat.
  rewrite !map_repeat. reflexivity.
Qed.

Lemma set_ram_eq : forall p s d,
  D.InterpreterDebug_set_ram p (dvm_of s) (map (@Int U32) d) = option_map dvm_of (M.set_ram s d).
Proof.
  intros. unfold D.InterpreterDebug_set_ram, M.set_ram, Rust.eq, len, val, copy_from_slice. flds.
  rewrite !map_length.
  destruct (Nat.eqb_spec (length (M.dram s)) (length d)) as [ E | E ].
  - rewrite E, Z.eqb_refl. reflexivity.
  - rewrite (proj2 (Z.eqb_neq _ _)) by lia. reflexivity.
Qed.

Lemma index_word : forall (l : list Z) (z : Z),
  index (map (@Int U32) l) (Int z) = option_map (@Int U32) (nth_error l (Z.to_nat z)).
Proof. intros. unfold index, val. apply nth_error_map. Qed.
Lemma store_word : forall (l : list Z) (z : Z) v,
  store (map (@Int U32) l) (Int z) (Int v)
  = option_map (map (@Int U32)) (Word.set_nth l (Z.to_nat z) v).
Proof.
  intros. unfold store, val. generalize (Z.to_nat z). clear z.
  induction l as [ | h l IH ]; intros [ | n ]; cbn; try reflexivity.
  rewrite IH. destruct (Word.set_nth l n v); reflexivity.
Qed.
Lemma cast_usize : forall z, cast USize (@Int U32 z) = Int z.
Proof. reflexivity. Qed.
Lemma shr2 : forall p z, shr p (@Int U32 z) (@lit I32 2) = Some (Int (Z.shiftr z 2)).
Proof. reflexivity. Qed.

Lemma read_instructions_eq : forall p s,
  D.InterpreterDebug_read_instructions p (dvm_of s) = option_map dvm_of (M.read_instructions s).
Proof.
  intros p [ a b c [ r1 r2 r3 r4 r5 r6 r7 ] d e [ l1 l2 l3 l4 l5 l6 l7 l8 l9 l10 l11 l12 ] ].
  unfold D.InterpreterDebug_read_instructions, M.read_instructions. flds.
  rewrite shr2, cast_usize, !index_word. set (i := Z.to_nat (Z.shiftr c 2)). clearbody i.
  repeat (let k := fresh in match goal with |- context [nth_error ?r i] => destruct (nth_error r i) as [ k | ]; [ cbn [option_map] | reflexivity ] end).
  reflexivity.
Qed.
Lemma read_registers_eq : forall p s,
  D.InterpreterDebug_read_registers p (dvm_of s) = option_map dvm_of (M.read_registers s).
Proof.
  intros p [ a b c [ r1 r2 r3 r4 r5 r6 r7 ] d e [ l1 l2 l3 l4 l5 l6 l7 l8 l9 l10 l11 l12 ] ].
  unfold D.InterpreterDebug_read_registers, M.read_registers. flds.
  rewrite !cast_usize, !index_word.
  destruct (nth_error d (Z.to_nat l7)); [ cbn [option_map] | reflexivity ].
  rewrite ?cast_usize, ?index_word.
  destruct (nth_error d (Z.to_nat l8)); reflexivity.
Qed.
Lemma ram_index_eq : forall s a, 0 <= M.ram_size s -> 0 <= a ->
  rem (@Int USize (Z.shiftr a 2)) (Int (M.ram_size s))
  = option_map (fun n => Int (Z.of_nat n)) (M.ram_index s a).
Proof.
  intros s a Hs Ha. unfold rem, div_ok, is_signed, val, M.ram_index.
  destruct (Z.eqb_spec (M.ram_size s) 0); [ reflexivity | ]. cbn [negb andb option_map].
  assert (0 <= Z.shiftr a 2) by (apply Z.shiftr_nonneg; lia).
  rewrite Z.rem_mod_nonneg by lia. rewrite Z2Nat.id; [ reflexivity | apply Z.mod_pos_bound; lia ].
Qed.
Lemma wadd_nonneg : forall a b, 0 <= Word.wsub a b.
Proof. intros. unfold Word.wsub, Word.u32. apply Z.mod_pos_bound. lia. Qed.
Lemma read_ram_eq : forall p s, 0 <= M.ram_size s ->
  D.InterpreterDebug_read_ram p (dvm_of s) = option_map dvm_of (M.read_ram s).
Proof.
  intros p s H. unfold D.InterpreterDebug_read_ram, M.read_ram.
  change (shl p (@lit U32 1) (@lit I32 18)) with (Some (@Int U32 (Word.shl32 1 18))).
  flds.
  change (wrapping_sub (wrapping_add (@Int U32 (M.imm (M.lat s))) (Int (M.rs1_val (M.lat s)))) (Int (Word.shl32 1 18)))
    with (@Int U32 (Word.wsub (Word.wadd (M.imm (M.lat s)) (M.rs1_val (M.lat s))) (Word.shl32 1 18))).
  rewrite shr2, !cast_usize, ram_index_eq by (auto using wadd_nonneg).
  destruct (M.ram_index s _) as [ n | ]; [ cbn [option_map] | reflexivity ].
  rewrite index_map. destruct (nth_error (M.dram s) n); reflexivity.
Qed.

Definition entry (kv : Z * Z) : int U32 * int U32 := (Int (fst kv), Int (snd kv)).
Lemma find_eq : forall k m, find (map entry m) (Int k) = option_map (@Int U32) (M.lookup k m).
Proof.
  intros k m. induction m as [ | [k' v] m IH ]; [ reflexivity | ].
  cbn [map entry find M.lookup fst snd]. unfold Rust.eq, val. destruct (k =? k'); [ reflexivity | exact IH ].
Qed.
Lemma build_eq : forall {A B} (conv : A -> B) (idt : B -> option (int U32)) (evt : B -> option (int U32))
    (id : A -> Z) (ev : A -> option Z) ops m,
  (forall o, idt (conv o) = Some (Int (id o))) ->
  (forall o, evt (conv o) = option_map (@Int U32) (ev o)) ->
  for_each (map conv ops) (fun op mp => match idt op with Some k =>
      match evt op with Some v => Some (insert mp k v) | None => None end | None => None end) (map entry m)
  = option_map (map entry) (M.build_map id ev ops m).
Proof.
  intros A B conv idt evt id ev ops m Hi He. revert m.
  induction ops as [ | o ops IH ]; intro m; [ reflexivity | ].
  cbn [map for_each M.build_map]. rewrite Hi, He. destruct (ev o) as [ v | ]; [ cbn [option_map] | reflexivity ].
  apply (IH ((id o, v) :: m)).
Qed.

Lemma update_registers_eq : forall p ops s,
  word (M.imm (M.lat s)) -> word (M.rs1_val (M.lat s)) -> word (M.rs2_val (M.lat s)) ->
  D.InterpreterDebug_update_registers p (dvm_of s) (map rd_of ops)
  = option_map dvm_of (M.update_registers ops s).
Proof.
  intros p ops s Hi H1 H2. unfold D.InterpreterDebug_update_registers, M.update_registers. flds.
  change (@map_new U32 (int U32)) with (map entry []).
  rewrite (build_eq rd_of (T.RD_UPDATE_id p)
    (fun op => T.RD_UPDATE_eval_plain p op (Int (M.imm (M.lat s))) (Int (M.rs1_val (M.lat s)))
       (Int (M.rs2_val (M.lat s))) (Int (M.dpc s)) (Int (M.ram_val (M.lat s)))) Codec.rd_id
    (fun o => EvalPlain.rd_eval o (M.imm (M.lat s)) (M.rs1_val (M.lat s)) (M.rs2_val (M.lat s)) (M.dpc s) (M.ram_val (M.lat s)))
    ops [] (rd_id_eq p)) by (intro o; apply rd_eval_eq; assumption).
  destruct (M.build_map _ _ ops []) as [ m | ]; [ cbn [option_map] | reflexivity ].
  rewrite find_eq. destruct (M.lookup _ m) as [ v | ]; [ cbn [option_map] | reflexivity ].
  rewrite cast_usize, store_word. destruct (Word.set_nth (M.dregs s) _ v) as [ r | ]; [ cbn [option_map] | reflexivity ].
  unfold lit. rewrite store_word. change (Z.to_nat 0) with 0%nat.
  destruct (Word.set_nth r 0 0); reflexivity.
Qed.
Lemma ram_list_eq : T.instructions_RAM_UPDATE_OP_LIST = map ram_of EvalPlain.RAM_LIST.
Proof. reflexivity. Qed.
Lemma pc_list_eq : T.instructions_PC_UPDATE_OP_LIST = map pc_of EvalPlain.PC_LIST.
Proof. reflexivity. Qed.
Lemma update_ram_eq : forall p s, 0 <= M.ram_size s -> 0 <= M.ram_addr (M.lat s) ->
  D.InterpreterDebug_update_ram p (dvm_of s) = option_map dvm_of (M.update_ram s).
Proof.
  intros p s H Ha. unfold D.InterpreterDebug_update_ram, M.update_ram. flds.
  rewrite ram_list_eq. unfold band at 1, val at 1 2, lit at 1.
  change (@map_new U32 (int U32)) with (map entry []).
  rewrite (build_eq ram_of (T.RAM_UPDATE_id p)
    (fun op => T.RAM_UPDATE_eval_plain p op (Int (M.rs2_val (M.lat s))) (Int (M.ram_val (M.lat s)))
       (@Int U32 (Z.land (M.ram_addr (M.lat s)) 3))) Codec.ram_id
    (fun o => Some (EvalPlain.ram_eval o (M.rs2_val (M.lat s)) (M.ram_val (M.lat s)) (Z.land (M.ram_addr (M.lat s)) 3)))
    EvalPlain.RAM_LIST [] (ram_id_eq p)) by (intro o; apply ram_eval_eq).
  destruct (M.build_map _ _ _ []) as [ m | ]; [ cbn [option_map] | reflexivity ].
  rewrite find_eq. destruct (M.lookup _ m) as [ v | ]; [ cbn [option_map] | reflexivity ].
  rewrite shr2, !cast_usize, ram_index_eq by assumption.
  destruct (M.ram_index s _) as [ n | ]; [ cbn [option_map] | reflexivity ].
  rewrite store_word, Nat2Z.id. destruct (Word.set_nth (M.dram s) n v); reflexivity.
Qed.
Lemma update_pc_eq : forall p s, word (M.rs1_val (M.lat s)) -> word (M.rs2_val (M.lat s)) ->
  D.InterpreterDebug_update_pc p (dvm_of s) = option_map dvm_of (M.update_pc s).
Proof.
  intros p s H1 H2. unfold D.InterpreterDebug_update_pc, M.update_pc. flds.
  rewrite pc_list_eq.
  change (@map_new U32 (int U32)) with (map entry []).
  rewrite (build_eq pc_of (T.PC_UPDATE_id p)
    (fun op => T.PC_UPDATE_eval_plain p op (Int (M.imm (M.lat s))) (Int (M.rs1_val (M.lat s)))
       (Int (M.rs2_val (M.lat s))) (Int (M.dpc s))) Codec.pc_id
    (fun o => Some (EvalPlain.pc_eval o (M.imm (M.lat s)) (M.rs1_val (M.lat s)) (M.rs2_val (M.lat s)) (M.dpc s)))
    EvalPlain.PC_LIST [] (pc_id_eq p)) by (intro o; apply pc_eval_eq; assumption).
  destruct (M.build_map _ _ _ []) as [ m | ]; [ cbn [option_map] | reflexivity ].
  rewrite find_eq. destruct (M.lookup _ m) as [ v | ]; reflexivity.
Qed.

Lemma word_rd_eval : forall o imm a b c r v, word imm -> word a -> word b -> word c -> word r ->
  EvalPlain.rd_eval o imm a b c r = Some v -> word v.
Proof.
  intros o imm a b c r v Hi Ha Hb Hc Hr E.
  destruct o; cbn [EvalPlain.rd_eval] in E;
  repeat match type of E with (if ?x then _ else _) = _ => destruct x eqn:? end;
  try discriminate E; injection E as <-; auto;
  try (unfold Word.wadd, Word.wsub, Word.wmul, Word.sar32; apply Bits.word_u32);
  try apply Bits.word_shl32; try (apply Bits.word_lxor; assumption); try (apply Bits.word_lor; assumption);
  try (apply Bits.word_land_l; [ assumption | unfold Isa.word in *; lia ]);
  try (apply Bits.word_shr32; [ apply low5 | assumption ]);
  try (unfold Isa.word; match goal with |- context [Word.b2w ?x] => destruct x end; cbn; lia);
  try (unfold Isa.word; lia).
  - unfold EvalPlain.sext. apply Bits.word_lor; [ apply Bits.word_shr32; [ lia | apply Bits.word_shl32 ] | apply Bits.word_wmul ].
  - unfold EvalPlain.sext. apply Bits.word_lor; [ apply Bits.word_shr32; [ lia | apply Bits.word_shl32 ] | apply Bits.word_wmul ].
  - unfold Isa.word in *. apply Z.eqb_neq in Heqb0.
    rewrite Z.quot_div_nonneg by lia. split; [ apply Z.div_pos; lia | ].
    apply Z.div_lt_upper_bound; [ lia | ]. nia.
  - unfold Isa.word in *. apply Z.eqb_neq in Heqb0.
    rewrite Z.rem_mod_nonneg by lia. pose proof (Z.mod_pos_bound a b). lia.
Qed.

(** the fields of the machine hold [u32]s *)
Definition typed (s : M.dvm) : Prop :=
  0 <= M.ram_size s /\ word (M.dpc s) /\ Forall word (M.imm_rom (M.drom s)) /\
  Forall word (M.dregs s) /\ Forall word (M.dram s).

Definition cycle_of (p : profile) (ops : list T.RD_UPDATE) (s : D.InterpreterDebug) : option D.InterpreterDebug :=
  s <- D.InterpreterDebug_read_instructions p s ;;
  s <- D.InterpreterDebug_read_registers p s ;;
  s <- D.InterpreterDebug_read_ram p s ;;
  s <- D.InterpreterDebug_update_registers p s ops ;;
  s <- D.InterpreterDebug_update_ram p s ;;
  D.InterpreterDebug_update_pc p s.

Lemma cycle_eq : forall p ops s, typed s ->
  cycle_of p (map rd_of ops) (dvm_of s) = option_map dvm_of (M.dcycle ops s)
  /\ (forall s', M.dcycle ops s = Some s' -> typed s').
Proof.
  intros p ops s (Hs & Hp & Hr & Hg & Hm). unfold cycle_of, M.dcycle.
  rewrite read_instructions_eq.
  destruct (M.read_instructions s) as [ s1 | ] eqn:E1; [ cbn [option_map] | split; [ reflexivity | discriminate ] ].
  assert (K1 : M.ram_size s1 = M.ram_size s /\ M.dpc s1 = M.dpc s /\ M.drom s1 = M.drom s /\ M.dregs s1 = M.dregs s
    /\ M.dram s1 = M.dram s /\ word (M.imm (M.lat s1))).
  { unfold M.read_instructions in E1.
    destruct (nth_error (M.imm_rom (M.drom s)) _) eqn:F; [ | discriminate E1 ].
    repeat match type of E1 with match ?x with _ => _ end = _ => destruct x; [ | discriminate E1 ] end.
    injection E1 as <-. flds. repeat split; try reflexivity;
    eapply Forall_forall in Hr; try eapply nth_error_In; eauto; apply Hr. }
  destruct K1 as (A1 & A2 & A3 & A4 & A5 & A6).
  rewrite read_registers_eq.
  destruct (M.read_registers s1) as [ s2 | ] eqn:E2; [ cbn [option_map] | split; [ reflexivity | discriminate ] ].
  assert (K2 : M.ram_size s2 = M.ram_size s /\ M.dpc s2 = M.dpc s /\ M.drom s2 = M.drom s /\ M.dregs s2 = M.dregs s
    /\ M.dram s2 = M.dram s /\ word (M.imm (M.lat s2)) /\ word (M.rs1_val (M.lat s2)) /\ word (M.rs2_val (M.lat s2))).
  { unfold M.read_registers in E2. rewrite A4 in E2.
    destruct (nth_error (M.dregs s) (Z.to_nat (M.rs1_addr (M.lat s1)))) eqn:F; [ | discriminate E2 ].
    destruct (nth_error (M.dregs s) (Z.to_nat (M.rs2_addr (M.lat s1)))) eqn:G; [ | discriminate E2 ].
    injection E2 as <-. flds. rewrite A1, A2, A3, A4, A5. rewrite Forall_forall in Hg.
    do 5 (split; [ reflexivity | ]). split; [ exact A6 | ].
    split; apply Hg; eapply nth_error_In; eauto. }
  destruct K2 as (B1 & B2 & B3 & B4 & B5 & B6 & B7 & B8).
  rewrite read_ram_eq by (rewrite B1; exact Hs).
  destruct (M.read_ram s2) as [ s3 | ] eqn:E3; [ cbn [option_map] | split; [ reflexivity | discriminate ] ].
  assert (K3 : M.ram_size s3 = M.ram_size s /\ M.dpc s3 = M.dpc s /\ M.drom s3 = M.drom s /\ M.dregs s3 = M.dregs s
    /\ M.dram s3 = M.dram s /\ word (M.imm (M.lat s3)) /\ word (M.rs1_val (M.lat s3)) /\ word (M.rs2_val (M.lat s3))
    /\ 0 <= M.ram_addr (M.lat s3) /\ word (M.ram_val (M.lat s3))).
  { unfold M.read_ram in E3.
    destruct (M.ram_index s2 _); [ | discriminate E3 ].
    destruct (nth_error (M.dram s2) n) eqn:F; [ | discriminate E3 ].
    injection E3 as <-. flds. rewrite B1, B2, B3, B4, B5. rewrite Forall_forall in Hm.
    do 5 (split; [ reflexivity | ]). do 3 (split; [ assumption | ]). split; [ apply wadd_nonneg | ].
    apply Hm. rewrite <- B5. eapply nth_error_In; eauto. }
  destruct K3 as (C1 & C2 & C3 & C4 & C5 & C6 & C7 & C8 & C9 & C10).
  rewrite update_registers_eq by assumption.
  destruct (M.update_registers ops s3) as [ s4 | ] eqn:E4; [ cbn [option_map] | split; [ reflexivity | discriminate ] ].
  assert (K4 : M.ram_size s4 = M.ram_size s /\ M.dpc s4 = M.dpc s /\ M.drom s4 = M.drom s /\ Forall word (M.dregs s4)
    /\ M.dram s4 = M.dram s /\ word (M.rs1_val (M.lat s4)) /\ word (M.rs2_val (M.lat s4))
    /\ 0 <= M.ram_addr (M.lat s4) /\ word (M.ram_val (M.lat s4))).
  { unfold M.update_registers in E4.
    destruct (M.build_map _ _ ops []) as [ m | ] eqn:F; [ | discriminate E4 ].
    destruct (M.lookup _ m) as [ v | ] eqn:G; [ | discriminate E4 ].
    destruct (Word.set_nth (M.dregs s3) _ v) as [ r | ] eqn:N; [ | discriminate E4 ].
    destruct (Word.set_nth r 0 0) as [ r' | ] eqn:N'; [ | discriminate E4 ].
    injection E4 as <-. flds. rewrite C1, C2, C3, C5.
    do 3 (split; [ reflexivity | ]). split; [ | auto ].
    assert (Wv : word v).
    { assert (Wm : forall ops m0 m1 k v, Forall (fun e => word (snd e)) m0 ->
        M.build_map Codec.rd_id (fun o => EvalPlain.rd_eval o (M.imm (M.lat s3)) (M.rs1_val (M.lat s3))
          (M.rs2_val (M.lat s3)) (M.dpc s3) (M.ram_val (M.lat s3))) ops m0 = Some m1 ->
        M.lookup k m1 = Some v -> word v).
      { clear F G. intro os. induction os as [ | o os IH ]; intros m0 m1 k v' W0 H L; cbn [M.build_map] in H.
        - injection H as <-. induction W0 as [ | [k1 v1] m0 W1 W2 IHm ]; cbn in L; [ discriminate | ].
          destruct (k =? k1); [ injection L as <-; exact W1 | exact (IHm L) ].
        - destruct (EvalPlain.rd_eval o _ _ _ _ _) as [ x | ] eqn:V; [ | discriminate H ].
          eapply IH; [ | exact H | exact L ]. constructor; [ | assumption ]. cbn [snd].
          eapply word_rd_eval; [ .. | exact V ]; try assumption. rewrite C2. exact Hp. }
      eapply Wm; [ constructor | exact F | exact G ]. }
    eapply ListFacts.set_nth_Forall; [ exact N' | | unfold Isa.word; lia ].
    eapply ListFacts.set_nth_Forall; [ exact N | rewrite C4; exact Hg | exact Wv ]. }
  destruct K4 as (D1 & D2 & D3 & D4 & D5 & D7 & D8 & D9 & D10).
  rewrite update_ram_eq; [ | rewrite D1; exact Hs | exact D9 ].
  destruct (M.update_ram s4) as [ s5 | ] eqn:E5; [ cbn [option_map] | split; [ reflexivity | discriminate ] ].
  assert (K5 : M.ram_size s5 = M.ram_size s /\ M.dpc s5 = M.dpc s /\ M.drom s5 = M.drom s /\ Forall word (M.dregs s5)
    /\ Forall word (M.dram s5) /\ word (M.rs1_val (M.lat s5)) /\ word (M.rs2_val (M.lat s5))).
  { unfold M.update_ram in E5. cbn [M.build_map EvalPlain.RAM_LIST] in E5.
    destruct (M.lookup _ _) as [ v | ] eqn:G; [ | discriminate E5 ].
    destruct (M.ram_index s4 _) as [ n | ]; [ | discriminate E5 ].
    destruct (Word.set_nth (M.dram s4) n v) as [ d | ] eqn:N; [ | discriminate E5 ].
    injection E5 as <-. flds. rewrite D1, D2, D3.
    do 3 (split; [ reflexivity | ]). split; [ assumption | ]. split; [ | auto ].
    eapply ListFacts.set_nth_Forall; [ exact N | rewrite D5; exact Hm | ].
    cbn [M.lookup] in G.
    repeat match type of G with (if ?b then _ else _) = _ => destruct b end;
    try discriminate G; match type of G with Some ?a = Some _ => assert (EV : a = v) by congruence end;
    rewrite <- EV; apply EvalFacts.word_ram_eval; assumption. }
  destruct K5 as (F1 & F2 & F3 & F4 & F5 & F7 & F8).
  rewrite update_pc_eq by assumption. split; [ reflexivity | ].
  intros s' H. unfold M.update_pc in H. cbn [M.build_map EvalPlain.PC_LIST] in H.
  destruct (M.lookup _ _) as [ v | ] eqn:G; [ | discriminate H ]. injection H as <-.
  unfold typed. flds. rewrite F1, F3. split; [ assumption | ]. split; [ | auto ].
  cbn [M.lookup] in G.
  repeat match type of G with (if ?b then _ else _) = _ => destruct b end;
  try discriminate G; match type of G with Some ?a = Some _ => assert (EV : a = v) by congruence end;
  rewrite <- EV; cbn [EvalPlain.pc_eval];
  repeat match goal with |- context [if ?b then _ else _] => destruct b end;
  try (unfold Word.wadd; apply Bits.word_u32).
  apply Bits.word_land_l; [ apply Bits.word_u32 | lia ].
Qed.

Fixpoint cycles_of (p : profile) (ops : list T.RD_UPDATE) (n : nat) (s : D.InterpreterDebug) : option D.InterpreterDebug :=
  match n with
  | O => Some s
  | S n => s' <- cycle_of p ops s ;; cycles_of p ops n s'
  end.
Lemma cycles_eq : forall p ops n s, typed s ->
  cycles_of p (map rd_of ops) n (dvm_of s) = option_map dvm_of (M.dcycles ops n s).
Proof.
  intros p ops n. induction n as [ | n IH ]; intros s H; [ reflexivity | ].
  cbn [cycles_of M.dcycles]. destruct (cycle_eq p ops s H) as (E & K). rewrite E.
  destruct (M.dcycle ops s) as [ s' | ]; [ cbn [option_map] | reflexivity ]. apply IH. auto.
Qed.

(** ** Loading *)
Lemma store_next : forall {A} (D R : list A) x v k, Z.to_nat k = length D ->
  store (D ++ x :: R) (Int k) v = Some (D ++ v :: R).
Proof.
  intros A D R x v k H. unfold store, val. rewrite H. clear H k.
  induction D as [ | h D IH ]; cbn; [ reflexivity | ]. rewrite IH. reflexivity.
Qed.
Definition with_roms (s : M.dvm) (r : M.roms) : M.dvm :=
  M.Build_dvm (M.ram_size s) (M.rom_size s) (M.dpc s) r (M.dregs s) (M.dram s) (M.lat s).
Definition app_roms (a b : M.roms) : M.roms :=
  M.Build_roms (M.imm_rom a ++ M.imm_rom b) (M.rs1_rom a ++ M.rs1_rom b) (M.rs2_rom a ++ M.rs2_rom b)
    (M.rd_rom a ++ M.rd_rom b) (M.rdu_rom a ++ M.rdu_rom b) (M.mu_rom a ++ M.mu_rom b)
    (M.pcu_rom a ++ M.pcu_rom b).
Definition rom_len (n : nat) (r : M.roms) : Prop :=
  length (M.imm_rom r) = n /\ length (M.rs1_rom r) = n /\ length (M.rs2_rom r) = n /\
  length (M.rd_rom r) = n /\ length (M.rdu_rom r) = n /\ length (M.mu_rom r) = n /\
  length (M.pcu_rom r) = n.

Lemma fill_loop : forall p q ws pre post s D R,
  Codec.p_raw q = pre ++ ws ++ post -> rom_len (length pre) D -> rom_len (length ws) R ->
  for_each (counting (length ws) (Z.of_nat (length pre)))
    (fun (i : int USize) (self : D.InterpreterDebug) =>
    t1 <- T.InstructionsParser_get_raw p (parser_of q) i ;;
    t2 <- T.Instruction_get_imm p t1 ;;
    let t3 : int U32 := (Rust.cast Rust.U32 t2) in
    t4 <- Rust.store (D.InterpreterDebug_imm_rom self) i t3 ;;
    let self := (D.set_InterpreterDebug_imm_rom self t4) in
    t5 <- T.InstructionsParser_get_raw p (parser_of q) i ;;
    t6 <- T.Instruction_get_registers p t5 ;;
    let '(rs2, rs1, rd) := t6 in
    let t7 : int U32 := (Rust.cast Rust.U32 rs1) in
    t8 <- Rust.store (D.InterpreterDebug_rs1_rom self) i t7 ;;
    let self := (D.set_InterpreterDebug_rs1_rom self t8) in
    let t9 : int U32 := (Rust.cast Rust.U32 rs2) in
    t10 <- Rust.store (D.InterpreterDebug_rs2_rom self) i t9 ;;
    let self := (D.set_InterpreterDebug_rs2_rom self t10) in
    let t11 : int U32 := (Rust.cast Rust.U32 rd) in
    t12 <- Rust.store (D.InterpreterDebug_rd_rom self) i t11 ;;
    let self := (D.set_InterpreterDebug_rd_rom self t12) in
    t13 <- T.InstructionsParser_get_raw p (parser_of q) i ;;
    t14 <- T.Instruction_get_opid p t13 ;;
    let '(rdu, mu, pcu) := t14 in
    let t15 : int U32 := (Rust.cast Rust.U32 (T.RD_UPDATE_discriminant rdu)) in
    t16 <- Rust.store (D.InterpreterDebug_rdu_rom self) i t15 ;;
    let self := (D.set_InterpreterDebug_rdu_rom self t16) in
    let t17 : int U32 := (Rust.cast Rust.U32 (T.RAM_UPDATE_discriminant mu)) in
    t18 <- Rust.store (D.InterpreterDebug_mu_rom self) i t17 ;;
    let self := (D.set_InterpreterDebug_mu_rom self t18) in
    let t19 : int U32 := (Rust.cast Rust.U32 (T.PC_UPDATE_discriminant pcu)) in
    t20 <- Rust.store (D.InterpreterDebug_pcu_rom self) i t19 ;;
    let self := (D.set_InterpreterDebug_pcu_rom self t20) in
    Some self) (dvm_of (with_roms s (app_roms D R)))
  = option_map (fun r => dvm_of (with_roms s (app_roms D r))) (M.fill (debug_assertions p) ws).
Proof.
  intros p q ws. induction ws as [ | w ws IH ]; intros pre post s D R Q LD LR.
  - cbn [length counting for_each M.fill option_map].
    destruct LR as (L1 & L2 & L3 & L4 & L5 & L6 & L7).
    destruct R as [ r1 r2 r3 r4 r5 r6 r7 ]. flds.
    destruct r1, r2, r3, r4, r5, r6, r7; try discriminate. reflexivity.
  - destruct D as [ d1 d2 d3 d4 d5 d6 d7 ], R as [ r1 r2 r3 r4 r5 r6 r7 ].
    unfold rom_len in LD, LR.
    cbn [M.imm_rom M.rs1_rom M.rs2_rom M.rd_rom M.rdu_rom M.mu_rom M.pcu_rom] in LD, LR.
    destruct LD as (D1 & D2 & D3 & D4 & D5 & D6 & D7).
    destruct LR as (L1 & L2 & L3 & L4 & L5 & L6 & L7).
    destruct r1 as [ | x1 r1 ], r2 as [ | x2 r2 ], r3 as [ | x3 r3 ], r4 as [ | x4 r4 ], r5 as [ | x5 r5 ],
      r6 as [ | x6 r6 ], r7 as [ | x7 r7 ]; try discriminate.
    cbn [length counting for_each M.fill].
    match goal with |- match ?e with _ => _ end = _ =>
      assert (B : e = option_map (fun c : Z * Z * Z * Z * Z * Z * Z =>
        let '(im, rs1, rs2, rd, a, b, c) := c in
        dvm_of (with_roms s (app_roms
          (M.Build_roms (d1 ++ [im]) (d2 ++ [rs1]) (d3 ++ [rs2]) (d4 ++ [rd]) (d5 ++ [a]) (d6 ++ [b]) (d7 ++ [c]))
          (M.Build_roms r1 r2 r3 r4 r5 r6 r7)))) (M.components (debug_assertions p) w)) end.
    { rewrite parser_get_raw_eq. unfold Codec.parser_get_raw. rewrite Q.
      rewrite nth_error_app2, Nat.sub_diag by lia. cbn [app nth_error option_map].
      rewrite get_imm_eq, get_registers_eq, get_opid_eq. unfold M.components.
      destruct (Codec.get_imm (debug_assertions p) w) as [ im | ]; [ cbn [option_map] | reflexivity ].
      cbv zeta. unfold with_roms, app_roms. flds. rewrite !map_app. cbn [map].
      assert (ST : forall (d r : list Z) x v, length d = length pre ->
        store (map (@Int U32) d ++ Int x :: map (@Int U32) r) (Int (Z.of_nat (length pre))) v
        = Some (map (@Int U32) d ++ v :: map (@Int U32) r)).
      { intros d r x v E. apply store_next. rewrite Nat2Z.id, map_length. auto. }
      rewrite ST by exact D1.
      destruct (Codec.get_registers (debug_assertions p) w) as [ [[rs2 rs1] rd] | ]; [ cbn [option_map regs_of] | reflexivity ].
      rewrite ST by exact D2. flds. rewrite ST by exact D3. flds. rewrite ST by exact D4. flds.
      destruct (Codec.get_opid (debug_assertions p) w) as [ [[o1 o2] o3] | ]; [ cbn [option_map opid_of] | reflexivity ].
      rewrite rd_disc, ram_disc, pc_disc.
      rewrite ST by exact D5. flds. rewrite ST by exact D6. flds. rewrite ST by exact D7. flds.
      unfold dvm_of. cbv zeta. flds. rewrite <- ?app_assoc. cbn [app]. rewrite !map_app. cbn [map].
      destruct o1, o2, o3; reflexivity. }
    rewrite B. clear B.
    destruct (M.components (debug_assertions p) w) as [ [[[[[[im rs1] rs2] rd] a] b] c] | ];
      [ cbn [option_map] | reflexivity ].
    assert (E : Z.of_nat (length pre) + 1 = Z.of_nat (length (pre ++ [w]))) by (rewrite app_length; cbn; lia).
    rewrite E, (IH (pre ++ [w]) post).
    + destruct (M.fill (debug_assertions p) ws) as [ r | ]; [ cbn [option_map] | reflexivity ].
      unfold with_roms, app_roms. flds. rewrite <- !app_assoc. reflexivity.
    + rewrite Q, <- app_assoc. reflexivity.
    + unfold rom_len. cbn [M.imm_rom M.rs1_rom M.rs2_rom M.rd_rom M.rdu_rom M.mu_rom M.pcu_rom].
      rewrite !app_length. cbn [length]. lia.
    + unfold rom_len. cbn [M.imm_rom M.rs1_rom M.rs2_rom M.rd_rom M.rdu_rom M.mu_rom M.pcu_rom].
      cbn [length] in *. lia.
Qed.

Lemma set_instructions_eq : forall p s q, rom_len (length (M.imm_rom (M.drom s))) (M.drom s) ->
  length (Codec.p_raw q) = length (Codec.p_ins q) ->
  D.InterpreterDebug_set_instructions p (dvm_of s) (parser_of q)
  = option_map dvm_of (M.set_instructions (debug_assertions p) s q).
Proof.
  intros p s q L Q. unfold D.InterpreterDebug_set_instructions, M.set_instructions.
  unfold Rust.eq, len, val. cbn [parser_of T.InstructionsParser_instructions]. flds. rewrite !map_length.
  destruct (Nat.eqb_spec (length (M.imm_rom (M.drom s))) (length (Codec.p_ins q))) as [ E | E ];
    [ | rewrite (proj2 (Z.eqb_neq (Z.of_nat _) (Z.of_nat _))) by lia; reflexivity ].
  rewrite E, Z.eqb_refl, <- Q, Nat.leb_refl, firstn_all.
  unfold for_range, lit, val. rewrite Z.sub_0_r, Nat2Z.id.
  assert (N : rom_len (length (@nil Z)) (M.Build_roms [] [] [] [] [] [] [])) by (repeat split).
  pose proof (fill_loop p q (Codec.p_raw q) [] [] s (M.Build_roms [] [] [] [] [] [] []) (M.drom s)) as F.
  rewrite app_nil_r in F. specialize (F eq_refl N). rewrite E, <- Q in L. specialize (F L).
  destruct s as [ z1 z2 z3 [ r1 r2 r3 r4 r5 r6 r7 ] z4 z5 z6 ].
  change (Z.of_nat (length (@nil Z))) with 0 in F.
  unfold with_roms, app_roms in F. revert F. flds. cbn [app]. intro F.
  etransitivity; [ | etransitivity; [ exact (f_equal (fun o => match o with Some x => Some x | None => None end) F) | ] ].
  - reflexivity.
  - destruct (M.fill (debug_assertions p) (Codec.p_raw q)) as [ r | ]; [ | reflexivity ]. destruct r. reflexivity.
Qed.
