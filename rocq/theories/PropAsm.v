(** * Properties C79 and C80: assembling instructions *)
Require Import ZArith Lia List Bool.
From Verif Require Import Word Isa Bits Codec CodecSpec CodecFacts DecodeSpec DecodeFacts EvalPlain DecodeAccept Asm AsmSpec AsmFacts.
Import ListNotations.
Open Scope Z_scope.

(** C79.  Each template is the ISA encoding of its instruction with zero operands ... *)
Theorem C79_templates : forall t, template_word t = encode (template_instr t) /\ legal (template_instr t).
Proof. exact template_ok. Qed.
Print Assumptions C79_templates.
(** ... no RV32I instruction is missing from the table ... *)
Theorem C79_complete : forall i, legal i -> (forall k rd rs1 rs2, i <> OPM k rd rs1 rs2) ->
  exists t ops, Forall (fun p => word (snd p)) ops /\ puts ops (template_instr t) = Some i.
Proof.
  assert (M : forall r, reg r -> word r /\ r mod 32 = r) by (intros r H; split; [now apply word_reg|now apply mod_reg]).
  assert (S : forall k m, 0 < k <= 32 -> - 2 ^ (k - 1) <= m < 2 ^ (k - 1) -> word (to_word m) /\ signed k (to_word m) = m).
  { intros k m Hk Hm. split; [apply word_to_word|]. rewrite <- (signed_small k m) by lia.
    apply Z.bits_inj'. intros n Hn. rewrite !tb_signed, tb_to_word, tb_signed by lia.
    replace (0 <=? n) with true by (symmetry; apply Z.leb_le; lia).
    destruct (Z.ltb_spec n k).
    - replace (n <? 32) with true by (symmetry; apply Z.ltb_lt; lia).
      replace (n <? k) with true by (symmetry; apply Z.ltb_lt; lia).
      replace (0 <=? n) with true by (symmetry; apply Z.leb_le; lia). reflexivity.
    - replace (k - 1 <? 32) with true by (symmetry; apply Z.ltb_lt; lia).
      replace (k - 1 <? k) with true by (symmetry; apply Z.ltb_lt; lia).
      replace (0 <=? k - 1) with true by (symmetry; apply Z.leb_le; lia). reflexivity. }
  assert (E : forall m, m mod 2 = 0 -> to_word m - to_word m mod 2 = to_word m) by (intros m Hm; unfold to_word; lia).
  intros i L N. destruct i; cbn [legal] in L.
  - exists T_LUI, [(O_rd, rd); (O_imm, imm20)]. destruct (M rd) as (W1 & E1); [tauto|]. split.
    + repeat constructor; cbn [snd]; auto; unfold word; lia.
    + cbn [puts template_instr]. unfold put. rewrite E1, Z.mod_small by lia. reflexivity.
  - exists T_AUIPC, [(O_rd, rd); (O_imm, imm20)]. destruct (M rd) as (W1 & E1); [tauto|]. split.
    + repeat constructor; cbn [snd]; auto; unfold word; lia.
    + cbn [puts template_instr]. unfold put. rewrite E1, Z.mod_small by lia. reflexivity.
  - exists T_JAL, [(O_rd, rd); (O_imm, to_word off)]. destruct (M rd) as (W1 & E1); [tauto|].
    destruct (S 21 off) as (W2 & E2); [lia|lia|]. split; [repeat (apply Forall_cons || apply Forall_nil); assumption|].
    cbn [puts template_instr]; unfold put; cbv beta iota zeta; cbn [puts]. rewrite E1, E by tauto. now rewrite E2.
  - exists T_JALR, [(O_rd, rd); (O_rs1, rs1); (O_imm, to_word off)]. destruct (M rd) as (W1 & E1); [tauto|].
    destruct (M rs1) as (W3 & E3); [tauto|]. destruct (S 12 off) as (W2 & E2); [lia|lia|]. split; [repeat (apply Forall_cons || apply Forall_nil); assumption|].
    cbn [puts template_instr]; unfold put; cbv beta iota zeta; cbn [puts]. now rewrite E1, E2, E3.
  - destruct (M rs1) as (W1 & E1); [tauto|]. destruct (M rs2) as (W3 & E3); [tauto|]. destruct (S 13 off) as (W2 & E2); [lia|lia|].
    exists (match c with EQ => T_BEQ | NE => T_BNE | LT => T_BLT | GE => T_BGE | LTU => T_BLTU | GEU => T_BGEU end),
      [(O_rs1, rs1); (O_rs2, rs2); (O_imm, to_word off)]. split; [repeat (apply Forall_cons || apply Forall_nil); assumption|].
    destruct c; cbn [puts template_instr]; unfold put; cbv beta iota zeta; (rewrite E1, E3, E by tauto); now rewrite E2.
  - destruct (M rd) as (W1 & E1); [tauto|]. destruct (M rs1) as (W3 & E3); [tauto|]. destruct (S 12 off) as (W2 & E2); [lia|lia|].
    exists (match k with LB => T_LB | LH => T_LH | LW => T_LW | LBU => T_LBU | LHU => T_LHU end),
      [(O_rd, rd); (O_rs1, rs1); (O_imm, to_word off)]. split; [repeat (apply Forall_cons || apply Forall_nil); assumption|].
    destruct k; cbn [puts template_instr]; unfold put; cbv beta iota zeta; now rewrite E1, E2, E3.
  - destruct (M rs1) as (W1 & E1); [tauto|]. destruct (M rs2) as (W3 & E3); [tauto|]. destruct (S 12 off) as (W2 & E2); [lia|lia|].
    exists (match k with SB => T_SB | SH => T_SH | SW => T_SW end),
      [(O_rs1, rs1); (O_rs2, rs2); (O_imm, to_word off)]. split; [repeat (apply Forall_cons || apply Forall_nil); assumption|].
    destruct k; cbn [puts template_instr]; unfold put; cbv beta iota zeta; now rewrite E1, E2, E3.
  - destruct (M rd) as (W1 & E1); [tauto|]. destruct (M rs1) as (W3 & E3); [tauto|]. destruct (S 12 imm) as (W2 & E2); [lia|lia|].
    exists (match o with ADDI => T_ADDI | SLTI => T_SLTI | SLTIU => T_SLTIU | XORI => T_XORI | ORI => T_ORI | ANDI => T_ANDI end),
      [(O_rd, rd); (O_rs1, rs1); (O_imm, to_word imm)]. split; [repeat (apply Forall_cons || apply Forall_nil); assumption|].
    destruct o; cbn [puts template_instr]; unfold put; cbv beta iota zeta; now rewrite E1, E2, E3.
  - destruct (M rd) as (W1 & E1); [tauto|]. destruct (M rs1) as (W3 & E3); [tauto|]. destruct (M sh) as (W2 & E2); [unfold reg; lia|].
    exists (match o with SLLI => T_SLLI | SRLI => T_SRLI | SRAI => T_SRAI end),
      [(O_rd, rd); (O_rs1, rs1); (O_imm, sh)]. split; [repeat (apply Forall_cons || apply Forall_nil); assumption|].
    destruct o; cbn [puts template_instr]; unfold put; cbv beta iota zeta; now rewrite E1, E2, E3.
  - destruct (M rd) as (W1 & E1); [tauto|]. destruct (M rs1) as (W3 & E3); [tauto|]. destruct (M rs2) as (W2 & E2); [tauto|].
    exists (match o with ADD => T_ADD | SUB => T_SUB | SLL => T_SLL | SLT => T_SLT | SLTU => T_SLTU | XOR => T_XOR
            | SRL => T_SRL | SRA => T_SRA | OR => T_OR | AND => T_AND end),
      [(O_rd, rd); (O_rs1, rs1); (O_rs2, rs2)]. split; [repeat (apply Forall_cons || apply Forall_nil); assumption|].
    destruct o; cbn [puts template_instr]; unfold put; cbv beta iota zeta; now rewrite E1, E2, E3.
  - exfalso. eapply N. reflexivity.
Qed.
Print Assumptions C79_complete.
(** ... and any chain of setters, in any order and with any 32-bit values, gives
    the encoding of the instruction with the operands last written.  Debug builds
    refuse to write an operand the instruction does not have. *)
Theorem C79_assemble :
  forall dbg t ops, Forall (fun p => word (snd p)) ops ->
    match puts ops (template_instr t) with
    | Some i => assemble dbg t ops = Some (encode i) /\ legal i
    | None => assemble true t ops = None
    end.
Proof.
  intros dbg t ops W. destruct (template_ok t) as (E & L). unfold assemble. rewrite E. now apply fill_ok.
Qed.
Print Assumptions C79_assemble.
Example C79_case : (* the first instructions of tests/cycle.rs:64-78; SLTI's 0xEF10 is cut to -240 *)
  puts [(O_imm, 0xEF10); (O_rs1, 1); (O_rd, 3)] (template_instr T_SLTI) = Some (OPI SLTI 3 1 (-240)) /\
  assemble true T_SLTI [(O_imm, 0xEF10); (O_rs1, 1); (O_rd, 3)] = Some 0xF100A193 /\
  assemble true T_SW [(O_rs2, 3); (O_rs1, 31); (O_imm, 0xFFFFFFFC); (O_rs2, 35)] = Some (encode (STORE SW 31 3 (-4))) /\
  assemble true T_ADDI [(O_rs2, 3)] = None /\
  assemble false T_ADDI [(O_rs2, 3)] = Some (encode (OPI ADDI 0 0 3)).
Proof. vm_compute. auto 10. Qed.

(** C80.  The unit tests of the instruction formats pass for all operands that fit the
    operands they replace. *)
Theorem C80_unit_tests :
  forall dbg t ops imm rs2 rs1 rd, In (t, ops) unit_tests -> operands_ok t imm rs2 rs1 rd ->
    run_unit_test dbg t ops imm rs2 rs1 rd = Some tt.
Proof. exact unit_tests_pass. Qed.
Print Assumptions C80_unit_tests.
(** ... and only for those: the tests see every part of the decoded instruction. *)
Lemma rd_id_inj a b : rd_id a = rd_id b -> a = b.
Proof. destruct a; destruct b; intro H; try reflexivity; discriminate H. Qed.
Lemma ram_id_inj a b : ram_id a = ram_id b -> a = b.
Proof. destruct a; destruct b; intro H; try reflexivity; discriminate H. Qed.
Lemma pc_id_inj a b : pc_id a = pc_id b -> a = b.
Proof. destruct a; destruct b; intro H; try reflexivity; discriminate H. Qed.
Theorem C80_unit_tests_strict :
  forall dbg i imm rs2 rs1 rd ops, legal i ->
    (check_instruction dbg (encode i) imm rs2 rs1 rd ops = Some tt <->
     imm = imm_of i /\ (rs2, rs1, rd) = regs_of i /\ ops = ops_of i).
Proof.
  intros dbg i imm rs2 rs1 rd ops L. split.
  2:{ intros (E1 & E2 & E3). now apply check_ok. }
  intro C. destruct (decode_legal dbg i L) as (W & D1 & D2 & D3).
  destruct ops as [[o1 o2] o3], (ops_of i) as [[o1' o2'] o3'], (regs_of i) as [[r2' r1'] rd']. unfold check_instruction in C.
  destruct (parser_add dbg parser_new (encode i)) as [p|] eqn:E; [|discriminate C].
  destruct (parser_lookup dbg [encode i] p 0 (encode i)) as (p1 & p2 & p3 & a & b & c & m & (Q1 & Q2 & Q3) & G & _).
  { constructor; [exact W|constructor]. }
  { cbn [parser_add_all]. now rewrite E. }
  { reflexivity. }
  rewrite D1 in Q1. rewrite D2 in Q2. rewrite D3 in Q3. injection Q1 as <- <- <-. injection Q2 as <- <- <-. injection Q3 as <-.
  destruct (assert_size p 1); [|discriminate C]. unfold assert_instruction in C. rewrite G in C.
  destruct (_ && _) eqn:B in C; [|discriminate C]. rewrite !andb_true_iff, !Z.eqb_eq in B.
  destruct B as (((((((_ & B1) & B2) & B3) & B4) & B5) & B6) & B7).
  apply rd_id_inj in B5. apply ram_id_inj in B6. apply pc_id_inj in B7. subst. auto.
Qed.
Print Assumptions C80_unit_tests_strict.
Example C80_strict_case : legal (BRANCH EQ 1 2 8) /\
  check_instruction true (encode (BRANCH EQ 1 2 8)) 8 2 1 0 (RNONE, MNONE, PBEQ) = Some tt /\
  check_instruction true (encode (BRANCH EQ 1 2 8)) 8 2 1 0 (RNONE, MNONE, PNONE) = None.
Proof. split; [cbn [legal]; unfold reg; repeat split; lia|]. split; vm_compute; reflexivity. Qed.
(** The [imm_encoding] tests (u_type.rs:20-28, b_type.rs:40-48, s_type.rs:28-36,
    j_type.rs:36-44, i_type.rs:20-28), for all immediates and on any word. *)
Theorem C80_imm_encoding :
  forall w imm, word w -> word imm ->
    i_get (i_set w imm) = sext imm 11 /\ s_get (s_set w imm) = sext imm 11 /\
    (b_get (b_set w imm) = sext imm 12 <-> imm mod 2 = 0) /\
    (j_get (j_set w imm) = sext imm 20 <-> imm mod 2 = 0) /\
    (u_get (u_set w imm) = imm <-> imm < 2 ^ 20).
Proof.
  assert (P : forall k x, 1 < k <= 32 -> to_word (signed k (x - x mod 2)) = to_word (signed k x) <-> x mod 2 = 0).
  { intros k x K. split; [|intro E; now rewrite (even_sub x E)].
    intro H. assert (B : forall y, Z.testbit (to_word (signed k y)) 0 = Z.testbit y 0).
    { intro y. rewrite tb_to_word, tb_signed by lia. replace (0 <? k) with true by (symmetry; apply Z.ltb_lt; lia). reflexivity. }
    pose proof (B x) as B1. rewrite <- H, B, tb_even in B1. cbn [andb Z.ltb] in B1. rewrite <- Z.bit0_mod. now rewrite <- B1. }
  intros w imm W I. split; [rewrite i_rt, sext_11; auto|]. split; [rewrite s_rt, sext_11; auto|].
  split; [rewrite b_rt, sext_12 by auto; apply P; lia|]. split; [rewrite j_rt, sext_20 by auto; apply P; lia|].
  rewrite u_rt by auto. split; intro H.
  - rewrite <- H. apply Z.mod_pos_bound. lia.
  - apply Z.mod_small. unfold word in I. lia.
Qed.
Print Assumptions C80_imm_encoding.
Example C80_case : (* the operands of the source *)
  (operands_ok (B_test 5 99) (2 * 0xABC) 27 19 0 /\ run_unit_test true (B_test 5 99) (RNONE, MNONE, PBGE) (2 * 0xABC) 27 19 0 = Some tt) /\
  (operands_ok (Sh_test 1055 5) 31 0 19 11 /\ run_unit_test true (Sh_test 1055 5) (RSRAI, MNONE, PNONE) 31 0 19 11 = Some tt) /\
  length unit_tests = 45%nat /\
  run_unit_test true (U_test 55) (RLUI, MNONE, PNONE) (2 ^ 20) 0 0 11 = None /\
  run_unit_test true (R_test 32 5 51) (RSRL, MNONE, PNONE) 0 27 19 11 = None.
Proof. unfold operands_ok, word, reg. repeat split; try lia; vm_compute; reflexivity. Qed.
