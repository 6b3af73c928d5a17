(** * An ISA step as three updates: destination register, RAM, pc *)
Require Import ZArith Lia Bool List.
Require Import ZifyBool.
From Verif Require Import Word Isa Bits Codec DecodeSpec EvalPlain EvalSpec EvalFacts TestRunSpec TestRunFacts TestStep.
Import ListNotations.
Open Scope Z_scope.
Ltac Zify.zify_post_hook ::= idtac.

Definition opm (i : instr) : bool := match i with OPM _ _ _ _ => true | _ => false end.
Definition o_rd (i : instr) := fst (fst (ops_of i)).
Definition o_ram (i : instr) := snd (fst (ops_of i)).
Definition o_pc (i : instr) := snd (ops_of i).
Definition r_rs2 (i : instr) := fst (fst (regs_of i)).
Definition r_rs1 (i : instr) := snd (fst (regs_of i)).
Definition r_rd (i : instr) := snd (regs_of i).

Lemma legal_regs i : legal i -> reg (r_rs1 i) /\ reg (r_rs2 i) /\ reg (r_rd i).
Proof. assert (reg 0) by (unfold reg; lia). destruct i; cbn; intuition. Qed.
Lemma legal_imm i : legal i -> word (imm_of i).
Proof.
  intros H. destruct i; cbn in *; try apply to_word_word; unfold word; lia.
Qed.
Lemma rd_in_list i : opm i = false -> In (o_rd i) RD_RV32I.
Proof. intros H. destruct i; try discriminate; try destruct o; try destruct k; cbn; auto 40. Qed.

(** the RAM word the instruction sees, when it is a load *)
Definition sees (i : instr) (m : mach) (ram : Z) : Prop :=
  match i with
  | LOAD k _ rs1 off =>
      ea m rs1 off + ld_size k <= 2 ^ 32 /\
      forall j, 0 <= j < ld_size k -> m_mem m (ea m rs1 off + j) = byte j ram
  | _ => True
  end.

Lemma bytes_half w : word w -> byte 0 w + 2 ^ 8 * byte 1 w = w mod 2 ^ 16.
Proof.
  intros. unfold byte. cbn [Z.mul Pos.mul]. rewrite Z.pow_0_r, Z.div_1_r.
  change (2 ^ 16) with (2 ^ 8 * 2 ^ 8). rewrite Z.rem_mul_r by lia. reflexivity.
Qed.
Lemma bytes_word w : word w ->
  byte 0 w + 2 ^ 8 * byte 1 w + 2 ^ 16 * (byte 2 w + 2 ^ 8 * byte 3 w) = w.
Proof.
  intros H. unfold byte. cbn [Z.mul Pos.mul]. rewrite Z.pow_0_r, Z.div_1_r. unfold word in H.
  change (2 ^ 8) with 256. change (2 ^ 16) with 65536. change (2 ^ 24) with 16777216. change (2 ^ 32) with 4294967296 in H.
  Z.div_mod_to_equations. lia.
Qed.

Lemma isa_rd i m ram :
  legal i -> opm i = false -> word ram -> sees i m ram ->
  exists v, rd_spec (o_rd i) (imm_of i) (get (m_rf m) (r_rs1 i)) (get (m_rf m) (r_rs2 i)) (m_pc m) ram = Some v /\
    forall r, get (m_rf (isa_step i m)) r = get (put (m_rf m) (r_rd i) v) r.
Proof.
  intros Hl Ho Hr Hs.
  assert (GG : forall v r, get (get (m_rf m)) r = get (put (m_rf m) 0 v) r).
  { intros v r. unfold put, get. destruct (r =? 0); reflexivity. }
  assert (GP : forall rd v r, get (put (m_rf m) rd v) r = get (put (m_rf m) rd v) r) by reflexivity.
  destruct i; try discriminate; cbn in Hl; unfold o_rd, r_rs1, r_rs2, r_rd; cbn [ops_of regs_of fst snd imm_of].
  - eexists. split; [reflexivity|]. reflexivity.
  - eexists. split; [reflexivity|]. reflexivity.
  - eexists. split; [reflexivity|]. reflexivity.
  - eexists. split; [reflexivity|]. reflexivity.
  - eexists. split; [reflexivity|]. apply GG.
  - (* LOAD *) cbn [sees] in Hs. destruct Hs as [Hb Hs].
    assert (Hea : 0 <= ea m rs1 off) by apply to_word_word.
    assert (L8 : forall j, 0 <= j < ld_size k -> ld8 (m_mem m) (ea m rs1 off + j) = byte j ram).
    { intros j Hj. unfold ld8. rewrite to_word_small by (unfold word; lia). auto. }
    pose proof (L8 0 ltac:(destruct k; cbn; lia)) as L0. rewrite Z.add_0_r in L0.
    destruct k; (eexists; split; [reflexivity|]); intros r; cbn [isa_step m_rf];
      fold (ea m rs1 off); f_equal; f_equal; cbn [do_load ldk_id]; cbn [ld_size] in L8.
    + rewrite L0. reflexivity.
    + unfold ld16. rewrite L0, L8, bytes_half by (auto; lia). reflexivity.
    + unfold ld32, ld16. replace (ea m rs1 off + 2 + 1) with (ea m rs1 off + 3) by lia.
      rewrite L0, !L8 by lia. apply bytes_word; auto.
    + rewrite L0. reflexivity.
    + unfold ld16. rewrite L0, L8, bytes_half by (auto; lia). reflexivity.
  - eexists. split; [reflexivity|]. apply GG.
  - destruct o; (eexists; split; [reflexivity|]); intros r; cbn [isa_step m_rf]; f_equal; f_equal;
      cbn [iop_id alu_iop]; rewrite ?s32_to_word by lia; reflexivity.
  - destruct o; (eexists; split; [reflexivity|]); intros r; cbn [isa_step m_rf]; f_equal; f_equal;
      cbn [shop_id alu_shop]; rewrite (Z.mod_small sh 32) by lia; reflexivity.
  - destruct o; (eexists; split; [reflexivity|]); reflexivity.
Qed.

Lemma isa_pc i m : legal i ->
  pc_spec (o_pc i) (imm_of i) (get (m_rf m) (r_rs1 i)) (get (m_rf m) (r_rs2 i)) (m_pc m) = m_pc (isa_step i m).
Proof.
  intros Hl. destruct i; cbn in Hl; unfold o_pc, r_rs1, r_rs2; cbn [ops_of regs_of fst snd imm_of isa_step m_pc];
    try reflexivity.
  - cbn [pc_spec]. rewrite s32_to_word by lia. reflexivity.
  - cbn [pc_spec]. rewrite s32_to_word by lia. reflexivity.
  - destruct c; cbn [cond_id pc_spec]; rewrite s32_to_word by lia; reflexivity.
Qed.

Lemma isa_ram i m a : legal i ->
  match i with STORE k rs1 _ off => ea m rs1 off + st_size k <= 2 ^ 32 | _ => True end ->
  m_mem (isa_step i m) a =
    let e := to_word (get (m_rf m) (r_rs1 i) + s32 (imm_of i)) in
    if (e <=? a) && (a <? e + store_size (o_ram i))
    then byte (a - e) (get (m_rf m) (r_rs2 i)) else m_mem m a.
Proof.
  intros Hl Hb. cbv zeta.
  destruct i; unfold o_ram, r_rs1, r_rs2; cbn [ops_of regs_of fst snd imm_of isa_step m_mem store_size];
    try (match goal with |- _ = if (?e <=? _) && _ then _ else _ =>
           destruct (Z.leb_spec e a); destruct (Z.ltb_spec a (e + 0)); cbn [andb]; try reflexivity; lia end).
  cbn in Hl. rewrite s32_to_word by lia. fold (ea m rs1 off). set (e := ea m rs1 off) in *.
  assert (0 <= e) by apply to_word_word. generalize (get (m_rf m) rs2) as y. intros y.
  assert (T : forall j, 0 <= j < st_size k -> to_word (e + j) = e + j).
  { intros j Hj. apply to_word_small. unfold word. lia. }
  assert (T0 : to_word e = e). { rewrite <- (Z.add_0_r e) at 1. rewrite T; destruct k; cbn; lia. }
  destruct k; cbn [do_store stk_id store_size]; cbn [st_size] in T;
    unfold st32, st16, st8; rewrite ?T0, <- ?Z.add_assoc; change (2 + 1) with 3; rewrite ?T by lia;
    destruct (Z.leb_spec e a), (Z.ltb_spec a (e + 1)), (Z.ltb_spec a (e + 2)),
      (Z.ltb_spec a (e + 4)); try lia; cbn [andb];
    repeat match goal with |- context [?p =? ?q] => destruct (Z.eqb_spec p q); try lia end; try reflexivity;
    try match goal with H : a = e + ?j |- _ => replace (a - e) with j by lia end;
    try match goal with H : a = e |- _ => replace (a - e) with 0 by lia end;
    unfold byte; cbn [Z.mul Pos.mul]; rewrite ?Z.pow_0_r, ?Z.div_1_r; try reflexivity;
    rewrite ?Z.div_div by lia; reflexivity.
Qed.
