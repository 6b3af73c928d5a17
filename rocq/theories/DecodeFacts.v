(** * Decoder against the ISA encoding (proofs) *)
Require Import ZArith Lia Bool List.
Require Import ZifyBool.
From Verif Require Import Word Isa Bits Codec CodecSpec CodecBits CodecFacts DecodeSpec.
Import ListNotations.
Open Scope Z_scope.

Ltac rng := first [assumption | lia | apply fld_range; lia
  | match goal with |- 0 <= fld ?h ?l ?x < _ => apply (fld_range h l x); lia end].
Ltac zconst :=
  repeat match goal with
  | |- context [?a - ?b] =>
      let c := eval vm_compute in (a - b) in
      match c with Z0 => idtac | Zpos _ => idtac | Zneg _ => idtac end;
      change (a - b) with c
  end.
Ltac flds :=
  repeat first
  [ rewrite fld_cat_hi by (try rng; lia); zconst
  | rewrite fld_cat_lo by (try rng; lia) ].

Lemma enc_R_flds op rd f3 rs1 rs2 f7 :
  0 <= op < 2 ^ 7 -> 0 <= rd < 2 ^ 5 -> 0 <= f3 < 2 ^ 3 -> 0 <= rs1 < 2 ^ 5 -> 0 <= rs2 < 2 ^ 5 ->
  0 <= f7 < 2 ^ 7 ->
  let w := enc_R op rd f3 rs1 rs2 f7 in
  word w /\ fld 6 0 w = op /\ fld 11 7 w = rd /\ fld 14 12 w = f3 /\ fld 19 15 w = rs1 /\
  fld 24 20 w = rs2 /\ fld 31 25 w = f7.
Proof.
  intros. subst w. unfold enc_R. split.
  { unfold word. change 32 with (7 + (5 + (3 + (5 + (5 + 7))))).
    repeat (apply cat_range; try lia). }
  repeat split; flds; apply fld_all; lia.
Qed.

Lemma enc_I_R op rd f3 rs1 imm :
  enc_I op rd f3 rs1 imm = enc_R op rd f3 rs1 (fld 4 0 imm) (fld 11 5 imm).
Proof.
  unfold enc_I, enc_R. rewrite <- (cat_fld imm 0 5 11) by lia. reflexivity.
Qed.
Lemma enc_S_R op f3 rs1 rs2 imm :
  enc_S op f3 rs1 rs2 imm = enc_R op (fld 4 0 imm) f3 rs1 rs2 (fld 11 5 imm).
Proof. reflexivity. Qed.
Lemma cat_assoc a k b m c : 0 <= k -> 0 <= m -> cat a k (cat b m c) = cat (cat a k b) (k + m) c.
Proof. intros. unfold cat. rewrite Z.pow_add_r by lia. ring. Qed.
Lemma enc_B_R op f3 rs1 rs2 imm :
  enc_B op f3 rs1 rs2 imm =
  enc_R op (cat (fld 11 11 imm) 1 (fld 4 1 imm)) f3 rs1 rs2 (cat (fld 10 5 imm) 6 (fld 12 12 imm)).
Proof. unfold enc_B, enc_R. rewrite (cat_assoc (fld 11 11 imm)) by lia. reflexivity. Qed.
Lemma enc_U_R op rd imm :
  0 <= imm < 2 ^ 20 ->
  enc_U op rd imm = enc_R op rd (fld 2 0 imm) (fld 7 3 imm) (fld 12 8 imm) (fld 19 13 imm).
Proof.
  intros. unfold enc_U, enc_R. do 2 f_equal.
  change (cat (fld 12 8 imm) 5 (fld 19 13 imm)) with (cat (fld (13 - 1) 8 imm) (13 - 8) (fld 19 13 imm)).
  rewrite cat_fld by lia.
  change (cat (fld 7 3 imm) 5 (fld 19 8 imm)) with (cat (fld (8 - 1) 3 imm) (8 - 3) (fld 19 8 imm)).
  rewrite cat_fld by lia.
  change (cat (fld 2 0 imm) 3 (fld 19 3 imm)) with (cat (fld (3 - 1) 0 imm) (3 - 0) (fld 19 3 imm)).
  rewrite cat_fld by lia. rewrite fld_all by lia. reflexivity.
Qed.

Lemma cat_fld' x m1 l k h m :
  0 <= l -> l < m -> m <= h -> m1 = m - 1 -> k = m - l ->
  cat (fld m1 l x) k (fld h m x) = fld h l x.
Proof. intros. subst. apply cat_fld; lia. Qed.

(** splitting a word into its R-format fields *)
Lemma word_enc_R w : word w ->
  w = enc_R (fld 6 0 w) (fld 11 7 w) (fld 14 12 w) (fld 19 15 w) (fld 24 20 w) (fld 31 25 w).
Proof.
  intros Hw. unfold enc_R.
  rewrite (cat_fld' w) by lia.
  rewrite (cat_fld' w) by lia.
  rewrite (cat_fld' w) by lia.
  rewrite (cat_fld' w) by lia.
  rewrite (cat_fld' w) by lia.
  symmetry. apply fld_all. exact Hw.
Qed.

(** immediates of the formats *)
Lemma imm_I_enc op rd f3 rs1 imm :
  0 <= op < 2 ^ 7 -> 0 <= rd < 2 ^ 5 -> 0 <= f3 < 2 ^ 3 -> 0 <= rs1 < 2 ^ 5 ->
  - 2 ^ 11 <= imm < 2 ^ 11 -> imm_I (enc_I op rd f3 rs1 imm) = imm.
Proof.
  intros. unfold imm_I, enc_I. flds.
  rewrite (fld_all 11) by (rng; lia). rewrite fld_0_low by lia.
  change (11 + 1) with 12. rewrite signed_low by lia. apply signed_small; lia.
Qed.
Lemma imm_S_enc op f3 rs1 rs2 imm :
  0 <= op < 2 ^ 7 -> 0 <= f3 < 2 ^ 3 -> 0 <= rs1 < 2 ^ 5 -> 0 <= rs2 < 2 ^ 5 ->
  - 2 ^ 11 <= imm < 2 ^ 11 -> imm_S (enc_S op f3 rs1 rs2 imm) = imm.
Proof.
  intros. unfold imm_S, enc_S. flds.
  rewrite (fld_all 4) by (rng; lia). rewrite (fld_all 6) by (rng; lia).
  rewrite (cat_fld' imm) by lia.
  rewrite fld_0_low by lia.
  change (11 + 1) with 12. rewrite signed_low by lia. apply signed_small; lia.
Qed.
Lemma even_cat imm h : 1 <= h -> imm mod 2 = 0 -> cat 0 1 (fld h 1 imm) = fld h 0 imm.
Proof.
  intros Hh H. rewrite <- (cat_fld imm 0 1 h) by lia.
  replace (fld (1 - 1) 0 imm) with 0; [reflexivity|].
  unfold fld. cbn. rewrite Z.div_1_r. symmetry; exact H.
Qed.
Lemma imm_B_enc op f3 rs1 rs2 imm :
  0 <= op < 2 ^ 7 -> 0 <= f3 < 2 ^ 3 -> 0 <= rs1 < 2 ^ 5 -> 0 <= rs2 < 2 ^ 5 ->
  - 2 ^ 12 <= imm < 2 ^ 12 -> imm mod 2 = 0 -> imm_B (enc_B op f3 rs1 rs2 imm) = imm.
Proof.
  intros. unfold imm_B, enc_B. flds.
  rewrite !(fld_all 0) by (rng; lia). rewrite (fld_all 3), (fld_all 5) by (rng; lia).
  rewrite (cat_fld' imm) by lia.
  rewrite (cat_fld' imm) by lia.
  rewrite (cat_fld' imm) by lia.
  rewrite even_cat by lia. rewrite fld_0_low by lia.
  change (12 + 1) with 13. rewrite signed_low by lia. apply signed_small; lia.
Qed.
Lemma imm_J_enc op rd imm :
  0 <= op < 2 ^ 7 -> 0 <= rd < 2 ^ 5 ->
  - 2 ^ 20 <= imm < 2 ^ 20 -> imm mod 2 = 0 -> imm_J (enc_J op rd imm) = imm.
Proof.
  intros. unfold imm_J, enc_J. flds.
  rewrite !(fld_all 0) by (rng; lia). rewrite (fld_all 7), (fld_all 9) by (rng; lia).
  rewrite (cat_fld' imm) by lia.
  rewrite (cat_fld' imm) by lia.
  rewrite (cat_fld' imm) by lia.
  rewrite even_cat by lia. rewrite fld_0_low by lia.
  change (20 + 1) with 21. rewrite signed_low by lia. apply signed_small; lia.
Qed.
Lemma imm_U_enc op rd imm :
  0 <= op < 2 ^ 7 -> 0 <= rd < 2 ^ 5 -> 0 <= imm < 2 ^ 20 -> imm_U (enc_U op rd imm) = imm.
Proof. intros. unfold imm_U, enc_U. flds. apply fld_all. lia. Qed.

(** ** The debug checks inside the decoder never fire *)
Lemma get_opid_dbg dbg w : get_opid dbg w = get_opid false w.
Proof.
  destruct dbg; [|reflexivity]. unfold get_opid.
  destruct (get_type w) as [t|] eqn:Ht; [|reflexivity].
  destruct t; unfold get_funct3, get_funct7, dbg_guard; rewrite ?Ht;
    cbn [has_funct3 has_get_funct7]; reflexivity.
Qed.
Lemma get_registers_dbg dbg w : get_registers dbg w = get_registers false w.
Proof.
  destruct dbg; [|reflexivity]. unfold get_registers.
  destruct (get_type w) as [t|] eqn:Ht; [|reflexivity].
  destruct t; unfold get_rs1, get_rs2, get_rd, dbg_guard; rewrite ?Ht;
    cbn [has_rs1 has_rs2 has_rd]; reflexivity.
Qed.
Lemma get_imm_dbg dbg w : get_imm dbg w = get_imm false w.
Proof.
  destruct dbg; [|reflexivity]. unfold get_imm.
  destruct (get_type w) as [t|] eqn:Ht; [|reflexivity].
  destruct t; unfold get_funct3, get_shamt, dbg_guard; rewrite ?Ht;
    cbn [has_funct3 has_shamt]; reflexivity.
Qed.

Ltac rng_f3 := match goal with |- 0 <= ?f ?o < _ => destruct o; cbn; lia end.

(** decoding by fields *)
Ltac dec_unfold Hw :=
  unfold decoded; rewrite get_opid_dbg, get_registers_dbg, get_imm_dbg;
  unfold get_opid, get_registers, get_imm, get_funct3, get_funct7, get_rs1, get_rs2, get_rd, get_shamt,
    get_opcode, dbg_guard;
  rewrite (get_type_fld _ Hw); cbv zeta;
  rewrite (getf_opcode _ Hw), (getf_f3 _ Hw), (getf_f7 _ Hw), (getf_rs1 _ Hw), (getf_rs2 _ Hw),
    (getf_rd _ Hw), (getf_shamt _ Hw).

Lemma decode_R dbg w :
  word w -> fld 6 0 w = 51 ->
  forall o, opid_r (fld 31 25 w) (fld 14 12 w) = Some o ->
  decoded dbg w (o, MNONE, PNONE) (fld 24 20 w, fld 19 15 w, fld 11 7 w) 0.
Proof.
  intros Hw Ho o H. dec_unfold Hw. rewrite Ho. cbn -[fld opid_r]. rewrite H. auto.
Qed.

Lemma decode_legal dbg i :
  legal i -> word (encode i) /\ decoded dbg (encode i) (ops_of i) (regs_of i) (imm_of i).
Proof.
  intros Hl. destruct i; cbn [legal] in Hl; unfold reg in Hl; cbn [encode ops_of regs_of imm_of].
  - (* LUI *) pose proof (imm_U_enc 55 rd imm20 ltac:(lia) ltac:(lia) ltac:(lia)) as Himm.
    rewrite enc_U_R in * by lia.
    pose proof (enc_R_flds 55 rd (fld 2 0 imm20) (fld 7 3 imm20) (fld 12 8 imm20) (fld 19 13 imm20)
      ltac:(lia) ltac:(lia) ltac:(rng) ltac:(rng) ltac:(rng) ltac:(rng)) as (Hw & F0 & F1 & _).
    split; [exact Hw|]. dec_unfold Hw. rewrite F0, F1. rewrite u_get_spec, Himm by exact Hw. cbn -[fld].
    auto.
  - (* AUIPC *) pose proof (imm_U_enc 23 rd imm20 ltac:(lia) ltac:(lia) ltac:(lia)) as Himm.
    rewrite enc_U_R in * by lia.
    pose proof (enc_R_flds 23 rd (fld 2 0 imm20) (fld 7 3 imm20) (fld 12 8 imm20) (fld 19 13 imm20)
      ltac:(lia) ltac:(lia) ltac:(rng) ltac:(rng) ltac:(rng) ltac:(rng)) as (Hw & F0 & F1 & _).
    split; [exact Hw|]. dec_unfold Hw. rewrite F0, F1. rewrite u_get_spec, Himm by exact Hw. cbn -[fld].
    auto.
  - (* JAL *) pose proof (imm_J_enc 111 rd off ltac:(lia) ltac:(lia) ltac:(lia) ltac:(lia)) as Himm.
    assert (HE : exists u, 0 <= u < 2 ^ 20 /\ enc_J 111 rd off = enc_U 111 rd u).
    { eexists. split; [|reflexivity].
      change (2 ^ 20) with (2 ^ (8 + (1 + (10 + 1)))).
      repeat (apply cat_range; try lia; try rng). }
    destruct HE as (u & Hu & HE). rewrite HE in *. rewrite enc_U_R in * by lia.
    pose proof (enc_R_flds 111 rd (fld 2 0 u) (fld 7 3 u) (fld 12 8 u) (fld 19 13 u)
      ltac:(lia) ltac:(lia) ltac:(rng) ltac:(rng) ltac:(rng) ltac:(rng)) as (Hw & F0 & F1 & _).
    split; [exact Hw|]. dec_unfold Hw. rewrite F0, F1. rewrite j_get_spec, Himm by exact Hw. cbn -[fld].
    auto.
  - (* JALR *) pose proof (imm_I_enc 103 rd 0 rs1 off ltac:(lia) ltac:(lia) ltac:(lia) ltac:(lia) ltac:(lia)) as Himm.
    rewrite enc_I_R in *.
    pose proof (enc_R_flds 103 rd 0 rs1 (fld 4 0 off) (fld 11 5 off)
      ltac:(lia) ltac:(lia) ltac:(lia) ltac:(lia) ltac:(rng) ltac:(rng)) as (Hw & F0 & F1 & F2 & F3 & F4 & F5).
    split; [exact Hw|]. dec_unfold Hw. rewrite F0, F1, F2, F3. rewrite i_get_spec, Himm by exact Hw. cbn -[fld].
    auto.
  - (* BRANCH *)
    assert (Hf3 : 0 <= cond_f3 c < 2 ^ 3) by (destruct c; cbn; lia).
    pose proof (imm_B_enc 99 (cond_f3 c) rs1 rs2 off ltac:(lia) Hf3 ltac:(lia) ltac:(lia) ltac:(lia) ltac:(lia)) as Himm.
    rewrite enc_B_R in *.
    assert (R1 : 0 <= cat (fld 11 11 off) 1 (fld 4 1 off) < 2 ^ (1 + 4)) by (apply cat_range; try lia; rng).
    assert (R2 : 0 <= cat (fld 10 5 off) 6 (fld 12 12 off) < 2 ^ (6 + 1)) by (apply cat_range; try lia; rng).
    pose proof (enc_R_flds 99 _ (cond_f3 c) rs1 rs2 _
      ltac:(lia) R1 Hf3 ltac:(lia) ltac:(lia) R2) as (Hw & F0 & F1 & F2 & F3 & F4 & F5).
    split; [exact Hw|]. dec_unfold Hw. rewrite F0, F2, F3, F4.
    rewrite b_get_spec, Himm by exact Hw. destruct c; cbn -[fld]; auto.
  - (* LOAD *)
    assert (Hf3 : 0 <= ld_f3 k < 2 ^ 3) by (destruct k; cbn; lia).
    pose proof (imm_I_enc 3 rd (ld_f3 k) rs1 off ltac:(lia) ltac:(lia) Hf3 ltac:(lia) ltac:(lia)) as Himm.
    rewrite enc_I_R in *.
    pose proof (enc_R_flds 3 rd (ld_f3 k) rs1 (fld 4 0 off) (fld 11 5 off)
      ltac:(lia) ltac:(lia) Hf3 ltac:(lia) ltac:(rng) ltac:(rng)) as (Hw & F0 & F1 & F2 & F3 & F4 & F5).
    split; [exact Hw|]. dec_unfold Hw. rewrite F0, F1, F2, F3. rewrite i_get_spec, Himm by exact Hw.
    destruct k; cbn -[fld]; auto.
  - (* STORE *)
    assert (Hf3 : 0 <= st_f3 k < 2 ^ 3) by (destruct k; cbn; lia).
    pose proof (imm_S_enc 35 (st_f3 k) rs1 rs2 off ltac:(lia) Hf3 ltac:(lia) ltac:(lia) ltac:(lia)) as Himm.
    rewrite enc_S_R in *.
    pose proof (enc_R_flds 35 (fld 4 0 off) (st_f3 k) rs1 rs2 (fld 11 5 off)
      ltac:(lia) ltac:(rng) Hf3 ltac:(lia) ltac:(lia) ltac:(rng)) as (Hw & F0 & F1 & F2 & F3 & F4 & F5).
    split; [exact Hw|]. dec_unfold Hw. rewrite F0, F2, F3, F4. rewrite s_get_spec, Himm by exact Hw.
    destruct k; cbn -[fld]; auto.
  - (* OPI *)
    assert (Hf3 : 0 <= iop_f3 o < 2 ^ 3) by (destruct o; cbn; lia).
    pose proof (imm_I_enc 19 rd (iop_f3 o) rs1 imm ltac:(lia) ltac:(lia) Hf3 ltac:(lia) ltac:(lia)) as Himm.
    rewrite enc_I_R in *.
    pose proof (enc_R_flds 19 rd (iop_f3 o) rs1 (fld 4 0 imm) (fld 11 5 imm)
      ltac:(lia) ltac:(lia) Hf3 ltac:(lia) ltac:(rng) ltac:(rng)) as (Hw & F0 & F1 & F2 & F3 & F4 & F5).
    split; [exact Hw|]. dec_unfold Hw. rewrite F0, F1, F2, F3. rewrite i_get_spec, Himm by exact Hw.
    destruct o; cbn -[fld]; auto.
  - (* SHI *)
    pose proof (enc_R_flds 19 rd (shop_f3 o) rs1 sh (shop_f7 o)
      ltac:(lia) ltac:(lia) ltac:(rng_f3) ltac:(lia) ltac:(lia) ltac:(rng_f3)) as (Hw & F0 & F1 & F2 & F3 & F4 & F5).
    split; [exact Hw|]. dec_unfold Hw. rewrite F0, F1, F2, F3, F4, F5.
    destruct o; cbn -[fld]; auto.
  - (* OPR *)
    pose proof (enc_R_flds 51 rd (rop_f3 o) rs1 rs2 (rop_f7 o)
      ltac:(lia) ltac:(lia) ltac:(rng_f3) ltac:(lia) ltac:(lia) ltac:(rng_f3)) as (Hw & F0 & F1 & F2 & F3 & F4 & F5).
    split; [exact Hw|]. dec_unfold Hw. rewrite F0, F1, F2, F3, F4, F5.
    destruct o; cbn -[fld]; auto.
  - (* OPM *)
    pose proof (enc_R_flds 51 rd (mop_f3 o) rs1 rs2 1
      ltac:(lia) ltac:(lia) ltac:(rng_f3) ltac:(lia) ltac:(lia) ltac:(lia)) as (Hw & F0 & F1 & F2 & F3 & F4 & F5).
    split; [exact Hw|]. dec_unfold Hw. rewrite F0, F1, F2, F3, F4, F5.
    destruct o; cbn -[fld]; auto.
Qed.

(** ** Which words are accepted *)
Ltac fb := apply word_bits_eq; [apply word_fld; lia|apply word_fld; lia|];
  let n := fresh "n" in let H := fresh "H" in intros n H; open_words; bit_goal n H.
Lemma imm_I_lo w : word w -> fld 4 0 (imm_I w) = fld 24 20 w.
Proof. intros. unfold imm_I. fb. Qed.
Lemma imm_I_hi w : word w -> fld 11 5 (imm_I w) = fld 31 25 w.
Proof. intros. unfold imm_I. fb. Qed.
Lemma imm_S_lo w : word w -> fld 4 0 (imm_S w) = fld 11 7 w.
Proof. intros. unfold imm_S. fb. Qed.
Lemma imm_S_hi w : word w -> fld 11 5 (imm_S w) = fld 31 25 w.
Proof. intros. unfold imm_S. fb. Qed.
Lemma imm_B_1 w : word w -> fld 11 11 (imm_B w) = fld 7 7 w.
Proof. intros. unfold imm_B. fb. Qed.
Lemma imm_B_2 w : word w -> fld 4 1 (imm_B w) = fld 11 8 w.
Proof. intros. unfold imm_B. fb. Qed.
Lemma imm_B_3 w : word w -> fld 10 5 (imm_B w) = fld 30 25 w.
Proof. intros. unfold imm_B. fb. Qed.
Lemma imm_B_4 w : word w -> fld 12 12 (imm_B w) = fld 31 31 w.
Proof. intros. unfold imm_B. fb. Qed.
Lemma imm_J_1 w : word w -> fld 19 12 (imm_J w) = fld 19 12 w.
Proof. intros. unfold imm_J. fb. Qed.
Lemma imm_J_2 w : word w -> fld 11 11 (imm_J w) = fld 20 20 w.
Proof. intros. unfold imm_J. fb. Qed.
Lemma imm_J_3 w : word w -> fld 10 1 (imm_J w) = fld 30 21 w.
Proof. intros. unfold imm_J. fb. Qed.
Lemma imm_J_4 w : word w -> fld 20 20 (imm_J w) = fld 31 31 w.
Proof. intros. unfold imm_J. fb. Qed.

Lemma signed_even k x : 1 < k -> signed k (cat 0 1 x) mod 2 = 0.
Proof.
  intros Hk. replace 2 with (2 ^ 1) by reflexivity.
  assert (H : Z.testbit (signed k (cat 0 1 x)) 0 = false).
  { rewrite testbit_signed by lia. replace (0 <? k) with true by lia.
    rewrite testbit_cat by lia. reflexivity. }
  rewrite Z.bit0_odd in H. rewrite Zmod_odd. change (2 ^ 1) with 2 in *.
  destruct (Z.odd (signed k (cat 0 1 x))); congruence.
Qed.

Lemma f3_range w : 0 <= fld 14 12 w < 8. Proof. apply (fld_range 14 12); lia. Qed.
Lemma f7_range w : 0 <= fld 31 25 w < 128. Proof. apply (fld_range 31 25); lia. Qed.
Lemma r1_range w : 0 <= fld 19 15 w < 32. Proof. apply (fld_range 19 15); lia. Qed.
Lemma r2_range w : 0 <= fld 24 20 w < 32. Proof. apply (fld_range 24 20); lia. Qed.
Lemma rd_range w : 0 <= fld 11 7 w < 32. Proof. apply (fld_range 11 7); lia. Qed.

Lemma as_I w op : word w -> fld 6 0 w = op ->
  w = enc_I op (fld 11 7 w) (fld 14 12 w) (fld 19 15 w) (imm_I w).
Proof.
  intros Hw <-. rewrite enc_I_R, imm_I_lo, imm_I_hi by auto. apply word_enc_R; auto.
Qed.
Lemma as_S w op : word w -> fld 6 0 w = op ->
  w = enc_S op (fld 14 12 w) (fld 19 15 w) (fld 24 20 w) (imm_S w).
Proof.
  intros Hw <-. rewrite enc_S_R, imm_S_lo, imm_S_hi by auto. apply word_enc_R; auto.
Qed.
Lemma as_B w op : word w -> fld 6 0 w = op ->
  w = enc_B op (fld 14 12 w) (fld 19 15 w) (fld 24 20 w) (imm_B w).
Proof.
  intros Hw <-. rewrite enc_B_R, imm_B_1, imm_B_2, imm_B_3, imm_B_4 by auto.
  rewrite !(cat_fld' w) by lia. apply word_enc_R; auto.
Qed.
Lemma as_U w op : word w -> fld 6 0 w = op -> w = enc_U op (fld 11 7 w) (imm_U w).
Proof.
  intros Hw <-. unfold enc_U, imm_U. rewrite (cat_fld' w) by lia. rewrite (cat_fld' w) by lia.
  symmetry. apply fld_all. exact Hw.
Qed.
Lemma as_J w op : word w -> fld 6 0 w = op -> w = enc_J op (fld 11 7 w) (imm_J w).
Proof.
  intros Hw <-. unfold enc_J. rewrite imm_J_1, imm_J_2, imm_J_3, imm_J_4 by auto.
  rewrite (cat_fld' w) by lia. rewrite (cat_fld' w) by lia. rewrite (cat_fld' w) by lia.
  rewrite (cat_fld' w) by lia. rewrite (cat_fld' w) by lia. symmetry. apply fld_all. exact Hw.
Qed.

Lemma imm_I_range w : - 2 ^ 11 <= imm_I w < 2 ^ 11.
Proof. apply (signed_range 12). lia. Qed.
Lemma imm_S_range w : - 2 ^ 11 <= imm_S w < 2 ^ 11.
Proof. apply (signed_range 12). lia. Qed.
Lemma imm_B_range w : - 2 ^ 12 <= imm_B w < 2 ^ 12.
Proof. apply (signed_range 13). lia. Qed.
Lemma imm_J_range w : - 2 ^ 20 <= imm_J w < 2 ^ 20.
Proof. apply (signed_range 21). lia. Qed.

Ltac rngs w :=
  pose proof (f3_range w); pose proof (f7_range w); pose proof (r1_range w);
  pose proof (r2_range w); pose proof (rd_range w); pose proof (imm_I_range w);
  pose proof (imm_S_range w); pose proof (imm_B_range w); pose proof (imm_J_range w).

Ltac case_eqb H :=
  repeat match type of H with
  | context [if ?a =? ?b then _ else _] => destruct (Z.eqb_spec a b)
  end; try discriminate H.

Lemma isa_of_sound w i : word w -> isa_of w = Some i -> legal i /\ encode i = w.
Proof.
  intros Hw H. unfold isa_of in H. cbv zeta in H. rngs w.
  pose proof (word_enc_R w Hw) as HR.
  case_eqb H; injection H as <-; cbn [legal encode]; unfold reg;
    (split; [repeat split; try lia; try (apply signed_even; lia)|]).
  all: try (unfold imm_U; apply (fld_range 31 12); lia).
  all: try (symmetry; apply as_U; assumption).
  all: try (symmetry; apply as_J; assumption).
  all: cbn [cond_f3 ld_f3 st_f3 iop_f3 shop_f3 shop_f7 rop_f3 rop_f7 mop_f3].
  all: first
   [ symmetry; etransitivity; [apply as_I; eassumption|]; f_equal; lia
   | symmetry; etransitivity; [apply as_S; eassumption|]; f_equal; lia
   | symmetry; etransitivity; [apply as_B; eassumption|]; f_equal; lia
   | symmetry; etransitivity; [exact HR|]; f_equal; lia ].
Qed.
