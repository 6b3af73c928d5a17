(** * The translated reference machine equals its model: decoding and running *)
Require Import ZArith List Bool Lia.
From Verif Require Import Rust TextFacts TextTestFacts.
Require Verif.Isa Verif.Bits Verif.ListFacts Verif.Word Verif.TestVM Verif.TestDecode Verif.TextTest.
Import ListNotations.
Open Scope Z_scope.
Local Notation chk := overflow_checks.

(** ** Decoding *)
Definition reg_val (r : Z) : Prop := 0 <= r < 32.
Definition inst_ok (i : V.inst) : Prop :=
  match i with
  | V.ADD a b d | V.SUB a b d | V.SLL a b d | V.SLT a b d | V.SLTU a b d | V.XOR a b d | V.SRL a b d
  | V.SRA a b d | V.OR a b d | V.AND a b d | V.MUL a b d | V.MULH a b d | V.MULHSU a b d | V.MULHU a b d
  | V.DIV a b d | V.DIVU a b d | V.REM a b d | V.REMU a b d => reg_val a /\ reg_val b /\ reg_val d
  | V.SLLI a d s | V.SRLI a d s | V.SRAI a d s => reg_val a /\ reg_val d /\ 0 <= s < 32
  | V.LUI d i | V.AUIPC d i | V.JAL d i => reg_val d /\ word i
  | V.ADDI a b i | V.SLTI a b i | V.SLTIU a b i | V.XORI a b i | V.ORI a b i | V.ANDI a b i | V.JALR a b i
  | V.BEQ a b i | V.BNE a b i | V.BLT a b i | V.BGE a b i | V.BLTU a b i | V.BGEU a b i | V.LB a b i | V.LH a b i
  | V.LW a b i | V.LBU a b i | V.LHU a b i | V.SB a b i | V.SH a b i | V.SW a b i =>
      reg_val a /\ reg_val b /\ word i
  end.

Lemma reg_ext : forall v, reg_val (V.extract_bits v 5).
Proof. intro v. exact (extract_range v 5 ltac:(lia)). Qed.
Lemma reg_from : forall p v, X.RegisterIndex_from p (Int (V.extract_bits v 5)) = Some (r_of (V.extract_bits v 5)).
Proof.
  intros p v. pose proof (reg_ext v) as R. unfold X.RegisterIndex_from, lt, lit, val.
  rewrite (proj2 (Z.ltb_lt _ _)) by apply R. reflexivity.
Qed.
Lemma shl_bound : forall v n k, 0 <= n < 32 -> 0 <= k -> n + k <= 32 ->
  0 <= Word.shl32 (V.extract_bits v n) k < 2 ^ (n + k).
Proof.
  intros v n k N K S. pose proof (extract_range v n N) as R. unfold Word.shl32, Word.u32.
  rewrite Z.shiftl_mul_pow2 by lia. rewrite Z.pow_add_r by lia.
  assert (P : 2 ^ (n + k) <= 2 ^ 32) by (apply Z.pow_le_mono_r; lia). rewrite Z.pow_add_r in P by lia.
  change (2 ^ 32) with 4294967296 in P.
  assert (0 < 2 ^ k) by (apply Z.pow_pos_nonneg; lia).
  rewrite Z.mod_small by nia. nia.
Qed.
Lemma shl_word32 : forall s p a k, 0 <= k < 32 ->
  shl p (@Int U32 a) (@Int s k) = Some (Int (Word.shl32 a k)).
Proof. intros. rewrite shl_in by (cbn; lia). reflexivity. Qed.
Lemma add_u32 : forall p a b, 0 <= a + b < 4294967296 -> add p (@Int U32 a) (Int b) = Some (Int (a + b)).
Proof.
  intros p a b H. unfold add, checked, fits, val, least, largest.
  rewrite (proj2 (Z.leb_le _ _)) by lia. rewrite (proj2 (Z.leb_le _ _)) by lia. reflexivity.
Qed.
Ltac bounds :=
  repeat match goal with
  | |- context [Word.shl32 (V.extract_bits ?v ?n) ?k] =>
      let c := eval vm_compute in (2 ^ (n + k)) in
      let H := fresh in
      assert (H : 0 <= Word.shl32 (V.extract_bits v n) k < c) by (apply (shl_bound v n k); lia);
      generalize dependent (Word.shl32 (V.extract_bits v n) k); intros
  end;
  repeat match goal with
  | |- context [V.extract_bits ?v ?n] =>
      let c := eval vm_compute in (2 ^ n) in
      let H := fresh in
      assert (H : 0 <= V.extract_bits v n < c) by (apply (extract_range v n); lia);
      generalize dependent (V.extract_bits v n); intros
  end.
Ltac small := unfold Isa.word; try change (2 ^ 32) with 4294967296; bounds; lia.

Lemma fold_word : forall f l v, word v -> word (fold_left (fun o (i : nat) => Word.u32 (o + f i)) l v).
Proof. intros f l. induction l as [ | x l IH ]; intros v W; cbn; [ exact W | ]. apply IH. apply Bits.word_u32. Qed.
Lemma sign_extend_word : forall v n x, word v -> V.sign_extend v n = Some x -> word x.
Proof.
  intros v n x W. unfold V.sign_extend. destruct (Z.shiftr v n =? 0); [ | discriminate ]. cbv zeta.
  intro H. injection H as <-. apply (fold_word (fun i => Word.shl32 _ (Z.of_nat i))). exact W.
Qed.

Ltac dstep :=
  first [ rewrite shr_in by (cbn; lia) | rewrite extract_eq by lia | rewrite reg_from
        | rewrite shl_word32 by lia | rewrite add_u32 by small
        | rewrite sign_extend_eq by (first [ small | lia ]) ]; cbv beta iota zeta.
Ltac branch :=
  match goal with
  | |- (if ?c then _ else _) = _ => destruct c
  | |- match (if ?c then _ else _) with _ => _ end = _ => destruct c
  | |- (match (if ?c then _ else _) with _ => _ end) = _ => destruct c
  | |- match option_map Int ?e with _ => _ end = _ => destruct e; cbn [option_map]; [ | reflexivity ]
  end.

Lemma decode_eq : forall p s w, X.TestVM_decode_inst p s (Int w) = option_map inst_of (V.decode_inst w).
Proof.
  intros p s w. unfold X.TestVM_decode_inst, V.decode_inst, lit, Rust.eq, band. unfold val.
  repeat (repeat dstep; try reflexivity; branch; cbv beta iota zeta; cbn [andb]; try reflexivity).
Qed.

Ltac parts :=
  lazymatch goal with
  | |- reg_val _ => apply reg_ext
  | |- word (Word.shl32 _ _) => apply Bits.word_shl32
  | H : V.sign_extend ?a ?b = Some ?z |- word ?z =>
      let W := fresh in assert (W : word a) by small; exact (sign_extend_word _ _ _ W H)
  | |- 0 <= V.extract_bits ?v 5 < _ => apply (extract_range v 5); lia
  | |- _ /\ _ => split; parts
  end.
Lemma decode_ok_all : forall w, match V.decode_inst w with Some i => inst_ok i | None => True end.
Proof.
  intros w. unfold V.decode_inst. cbv zeta.
  repeat match goal with
  | |- match (if ?c then _ else _) with Some _ => _ | None => _ end => destruct c
  | |- match match ?e with Some _ => _ | None => _ end with Some _ => _ | None => _ end => destruct e eqn:?
  end; try exact I;
  unfold inst_ok; parts.
Qed.
Lemma decode_ok : forall w i, V.decode_inst w = Some i -> inst_ok i.
Proof. intros w i H. pose proof (decode_ok_all w) as Q. rewrite H in Q. exact Q. Qed.

(** ** Registers *)
Ltac sflds := cbn [vm_of X.TestVM_registers X.TestVM_rom X.TestVM_ram X.TestVM_pc X.TestVM_input_info X.TestVM_output_info
  X.TestVM_max_cycles X.set_TestVM_registers X.set_TestVM_pc X.set_TestVM_ram X.RegisterIndex_0 r_of
  V.registers V.rom V.ram V.pc V.input_info V.output_info V.max_cycles V.with_cpu].
Lemma reg_read : forall p s r, X.TestVM_register p (vm_of s) (r_of r) = option_map Int (V.register s r).
Proof.
  intros p s r. unfold X.TestVM_register, V.register. sflds. rewrite cast_usize, index_at.
  destruct (nth_error _ _); reflexivity.
Qed.
Lemma reg_word : forall s r a, vm_typed s -> V.register s r = Some a -> word a.
Proof.
  intros s r a (R & _) H. unfold V.register in H. apply nth_error_In in H. rewrite Forall_forall in R. auto.
Qed.
Lemma pc4_eq : forall p z, 0 <= z -> add p (@Int U32 z) (lit 4) = option_map Int (V.pc4 (chk p) z).
Proof.
  intros p z H. unfold add, checked, fits, lit, val, least, largest, V.pc4, wrap, is_signed, card.
  rewrite (proj2 (Z.leb_le _ _)) by lia. cbn [andb].
  destruct (Z.leb_spec (z + 4) 4294967295); destruct (Z.ltb_spec (z + 4) 4294967296); try lia; [ reflexivity | ].
  destruct (chk p); reflexivity.
Qed.
Lemma set_rd_eq : forall p s r v, vm_typed s ->
  (t6 <- Rust.store (X.TestVM_registers (vm_of s)) (Rust.cast Rust.USize (X.RegisterIndex_0 (r_of r))) (Int v) ;;
   let self := X.set_TestVM_registers (vm_of s) t6 in
   t7 <- Rust.add p (X.TestVM_pc self) (Rust.lit 4) ;;
   let self := X.set_TestVM_pc self t7 in
   Some self) = option_map vm_of (V.set_rd (chk p) s r v).
Proof.
  intros p s r v (_ & (P & _) & _). cbv zeta. sflds. rewrite cast_usize, store_at. unfold V.set_rd.
  destruct (Word.set_nth _ _ _); [ cbn [option_map] | reflexivity ]. rewrite pc4_eq by exact P.
  destruct (V.pc4 _ _); reflexivity.
Qed.
Lemma link_eq : forall p s r t, vm_typed s -> 0 <= t ->
  (t120 <- Rust.rem (@Int U32 t) (Rust.lit 4) ;;
   if (Rust.eq t120 (Rust.lit 0)) then let t121 := (Rust.wrapping_add (X.TestVM_pc (vm_of s)) (Rust.lit 4)) in
    let t122 := r_of r in
    t123 <- Rust.store (X.TestVM_registers (vm_of s)) (Rust.cast Rust.USize (X.RegisterIndex_0 t122)) t121 ;;
    let self := (X.set_TestVM_registers (vm_of s) t123) in
    let self := (X.set_TestVM_pc self (Int t)) in
    Some self else None) = option_map vm_of (V.link (chk p) s r t).
Proof.
  intros p s r t S T. rewrite rem_lit by (try reflexivity; lia). unfold V.link, Rust.eq, lit at 1. unfold val at 1 2.
  destruct (t mod 4 =? 0); [ | reflexivity ]. cbv zeta. sflds. rewrite cast_usize.
  change (wrapping_add (@Int U32 (V.pc s)) (lit 4)) with (@Int U32 (Word.wadd (V.pc s) 4)). rewrite store_at.
  destruct (Word.set_nth _ _ _); reflexivity.
Qed.
Lemma branch_eq : forall p s imm (b : bool), vm_typed s ->
  (if b
    then (t133 <- Rust.rem (Rust.wrapping_add (@Int U32 imm) (X.TestVM_pc (vm_of s))) (Rust.lit 4) ;;
      if (Rust.eq t133 (Rust.lit 0))
      then let self := (X.set_TestVM_pc (vm_of s) (Rust.wrapping_add (@Int U32 imm) (X.TestVM_pc (vm_of s)))) in
      Some self else None)
    else (t134 <- Rust.add p (X.TestVM_pc (vm_of s)) (Rust.lit 4) ;;
      let self := (X.set_TestVM_pc (vm_of s) t134) in
      Some self)) = option_map vm_of (V.branch (chk p) s b imm).
Proof.
  intros p s imm b (_ & (P & _) & _). unfold V.branch. cbv zeta. destruct b.
  - sflds. change (wrapping_add (@Int U32 imm) (@Int U32 (V.pc s))) with (@Int U32 (Word.wadd imm (V.pc s))).
    rewrite rem_lit by (try reflexivity; apply Bits.word_u32). unfold Rust.eq, lit, val.
    destruct (_ =? 0); reflexivity.
  - sflds. rewrite pc4_eq by exact P. destruct (V.pc4 _ _); reflexivity.
Qed.
Lemma stored_eq : forall p s om, vm_typed s ->
  (t202 <- option_map (mem_of true) om ;;
    let self := (X.set_TestVM_ram (vm_of s) t202) in
    t203 <- Rust.add p (X.TestVM_pc self) (Rust.lit 4) ;;
    let self := (X.set_TestVM_pc self t203) in
    Some self) = option_map vm_of (V.stored (chk p) s om).
Proof.
  intros p s [ m | ] (_ & (P & _) & _); [ cbn [option_map] | reflexivity ]. unfold V.stored. cbv zeta. sflds.
  rewrite pc4_eq by exact P. destruct (V.pc4 _ _); reflexivity.
Qed.
Lemma sub_u32 : forall p a b, 0 <= a - b < 4294967296 -> sub p (@Int U32 a) (Int b) = Some (Int (a - b)).
Proof.
  intros p a b H. unfold sub, checked, fits, val, least, largest.
  rewrite (proj2 (Z.leb_le _ _)) by lia. rewrite (proj2 (Z.leb_le _ _)) by lia. reflexivity.
Qed.
(** the subtractions are evaluated only when they cannot underflow *)
Lemma half_eq : forall {A} p a (K : bool -> option A), word a ->
  (t162 <- Rust.rem (@Int U32 a) (Rust.lit 4) ;;
    t165 <- (if (Rust.eq t162 (Rust.lit 0)) then Some true else t163 <- Rust.sub p (@Int U32 a) (Rust.lit 1) ;; t164 <- Rust.rem t163 (Rust.lit 4) ;; Some (Rust.eq t164 (Rust.lit 0))) ;;
    t168 <- (if t165 then Some true else t166 <- Rust.sub p (@Int U32 a) (Rust.lit 2) ;; t167 <- Rust.rem t166 (Rust.lit 4) ;; Some (Rust.eq t167 (Rust.lit 0))) ;;
   K t168) = K (V.half_ok a).
Proof.
  intros A p a K (W0 & W1). change (2 ^ 32) with 4294967296 in W1. unfold V.half_ok.
  rewrite rem_lit by (try reflexivity; lia). unfold Rust.eq, lit, val.
  pose proof (Z.div_mod a 4 ltac:(lia)) as D. pose proof (Z.mod_pos_bound a 4 ltac:(lia)) as B.
  destruct (Z.eqb_spec (a mod 4) 0) as [ E | E ]; [ reflexivity | ].
  rewrite sub_u32 by lia. change (@Int U32 4) with (@lit U32 4). rewrite rem_lit by (try reflexivity; lia). cbn [orb].
  destruct (Z.eqb_spec ((a - 1) mod 4) 0) as [ E1 | E1 ]; [ reflexivity | ].
  assert (a mod 4 <> 1).
  { intro Q. apply E1. rewrite D, Q. replace (4 * (a / 4) + 1 - 1) with (0 + (a / 4) * 4) by lia.
    rewrite Z.mod_add by lia. reflexivity. }
  rewrite sub_u32 by lia. rewrite rem_lit by (try reflexivity; lia). reflexivity.
Qed.
Lemma addr_eq : forall a b, cast USize (wrapping_add (@Int U32 a) (Int b)) = Int (Word.wadd a b).
Proof. reflexivity. Qed.
Lemma addr_usize : forall a b, usize_val (Word.wadd a b).
Proof. intros. destruct (Bits.word_u32 (a + b)) as (A & B). change (2 ^ 32) with 4294967296 in B. unfold usize_val, Word.wadd. lia. Qed.
Lemma div_i32 : forall a b, div (@Int I32 a) (Int b) = option_map Int (V.i32_div a b).
Proof.
  intros. unfold div, div_ok, val, is_signed, least, V.i32_div. cbn [andb].
  destruct (b =? 0); [ reflexivity | ]. destruct ((a =? -2147483648) && (b =? -1)); reflexivity.
Qed.
Lemma rem_i32 : forall a b, rem (@Int I32 a) (Int b) = option_map Int (V.i32_rem a b).
Proof.
  intros. unfold rem, div_ok, val, is_signed, least, V.i32_rem. cbn [andb].
  destruct (b =? 0); [ reflexivity | ]. destruct ((a =? -2147483648) && (b =? -1)); reflexivity.
Qed.
Lemma div_u32 : forall a b, div (@Int U32 a) (Int b) = option_map Int (V.u32_div a b).
Proof.
  intros. unfold div, div_ok, val, is_signed, V.u32_div. cbn [andb negb]. rewrite andb_true_r. destruct (b =? 0); reflexivity.
Qed.
Lemma rem_u32 : forall a b, rem (@Int U32 a) (Int b) = option_map Int (V.u32_rem a b).
Proof.
  intros. unfold rem, div_ok, val, is_signed, V.u32_rem. cbn [andb negb]. rewrite andb_true_r. destruct (b =? 0); reflexivity.
Qed.
