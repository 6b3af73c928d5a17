(** * Accepted words and the parser (proofs) *)
Require Import ZArith Lia Bool List.
Require Import ZifyBool.
From Verif Require Import Word Isa Bits Codec CodecSpec CodecBits CodecFacts DecodeSpec DecodeFacts.
Import ListNotations.
Open Scope Z_scope.

Lemma get_opid_isa dbg w :
  word w -> get_opid dbg w <> None -> isa_of w <> None \/ lenient w.
Proof.
  intros Hw. rewrite get_opid_dbg.
  unfold get_opid, get_funct3, get_funct7, get_opcode, dbg_guard, isa_of, lenient, opid_r.
  rewrite (get_type_fld _ Hw), (getf_opcode _ Hw), (getf_f3 _ Hw), (getf_f7 _ Hw).
  cbv zeta. pose proof (f3_range w). pose proof (f7_range w).
  set (op := fld 6 0 w) in *. set (f3 := fld 14 12 w) in *. set (f7 := fld 31 25 w) in *.
  clearbody op f3 f7.
  intro H1.
  destruct (Z.eqb_spec op 55); [left; discriminate|].
  destruct (Z.eqb_spec op 23); [left; discriminate|].
  destruct (Z.eqb_spec op 111); [left; discriminate|].
  destruct (Z.eqb_spec op 103).
  { destruct (Z.eqb_spec f3 0); [left; discriminate|]. right. lia. }
  destruct (Z.eqb_spec op 19).
  { subst op. cbn [Z.eqb Pos.eqb orb] in H1.
    destruct (Z.eqb_spec f3 1).
    - subst f3. cbn [Z.eqb Pos.eqb orb].
      destruct (Z.eqb_spec f7 0); [left; discriminate|right; lia].
    - left. revert H1.
      repeat match goal with
      | |- context [if ?a =? ?b then _ else _] => destruct (Z.eqb_spec a b); try lia; try congruence
      end. }
  destruct (Z.eqb_spec op 3).
  { subst op. cbn [Z.eqb Pos.eqb orb] in *. left. revert H1.
    repeat match goal with
      | |- context [if ?a =? ?b then _ else _] => destruct (Z.eqb_spec a b); try lia; try congruence
      end. }
  destruct (Z.eqb_spec op 51).
  { subst op. cbn [Z.eqb Pos.eqb orb] in *. left. revert H1.
    repeat match goal with
      | |- context [if ?a =? ?b then _ else _] => destruct (Z.eqb_spec a b); try lia; try congruence
      end. }
  destruct (Z.eqb_spec op 35).
  { subst op. cbn [Z.eqb Pos.eqb orb] in *. left. revert H1.
    repeat match goal with
      | |- context [if ?a =? ?b then _ else _] => destruct (Z.eqb_spec a b); try lia; try congruence
      end. }
  destruct (Z.eqb_spec op 99).
  { subst op. cbn [Z.eqb Pos.eqb orb] in *. left. revert H1.
    repeat match goal with
      | |- context [if ?a =? ?b then _ else _] => destruct (Z.eqb_spec a b); try lia; try congruence
      end. }
  destruct (Z.eqb_spec op 115); [right; lia|].
  exfalso. apply H1. cbn [orb].
  repeat match goal with
      | |- context [?a =? ?b] => destruct (Z.eqb_spec a b); try lia
  end. reflexivity.
Qed.

Lemma lenient_accepted dbg w : word w -> lenient w -> accepted dbg w.
Proof.
  intros Hw H. unfold accepted, decoded.
  destruct H as [(H0 & H1 & H2)|[(H0 & H1)|H0]].
  - do 3 eexists. dec_unfold Hw. rewrite H0, H1. cbn -[fld]. auto.
  - do 3 eexists. dec_unfold Hw. rewrite H0. cbn -[fld i_get]. rewrite andb_false_r. auto.
  - do 3 eexists. dec_unfold Hw. rewrite H0. cbn -[fld]. auto.
Qed.

Lemma accepted_iff dbg w : word w -> accepted dbg w <-> legal_word w \/ lenient w.
Proof.
  intros Hw. split.
  - intros (o & r & imm & H & _).
    destruct (get_opid_isa dbg w Hw) as [Hi|Hi]; [congruence| |right; exact Hi].
    left. destruct (isa_of w) as [i|] eqn:E; [|congruence].
    exists i. apply isa_of_sound; auto.
  - intros [(i & Hl & <-)|H].
    + exists (ops_of i), (regs_of i), (imm_of i). apply decode_legal; auto.
    + apply lenient_accepted; auto.
Qed.

Lemma legal_not_lenient i : legal i -> ~ lenient (encode i).
Proof.
  intros Hl HL. unfold lenient in HL.
  destruct i; cbn [legal] in Hl; unfold reg in Hl; cbn [encode] in HL.
  - rewrite enc_U_R in HL by lia.
    pose proof (enc_R_flds 55 rd (fld 2 0 imm20) (fld 7 3 imm20) (fld 12 8 imm20) (fld 19 13 imm20)
      ltac:(lia) ltac:(lia) ltac:(rng) ltac:(rng) ltac:(rng) ltac:(rng)) as F. cbv zeta in F. lia.
  - rewrite enc_U_R in HL by lia.
    pose proof (enc_R_flds 23 rd (fld 2 0 imm20) (fld 7 3 imm20) (fld 12 8 imm20) (fld 19 13 imm20)
      ltac:(lia) ltac:(lia) ltac:(rng) ltac:(rng) ltac:(rng) ltac:(rng)) as F. cbv zeta in F. lia.
  - assert (H6 : fld 6 0 (enc_J 111 rd off) = 111) by (unfold enc_J; flds; apply fld_all; lia). lia.
  - rewrite enc_I_R in HL.
    pose proof (enc_R_flds 103 rd 0 rs1 (fld 4 0 off) (fld 11 5 off)
      ltac:(lia) ltac:(lia) ltac:(lia) ltac:(lia) ltac:(rng) ltac:(rng)) as F. cbv zeta in F. lia.
  - assert (H6 : fld 6 0 (enc_B 99 (cond_f3 c) rs1 rs2 off) = 99) by (unfold enc_B; flds; apply fld_all; lia). lia.
  - assert (H6 : fld 6 0 (enc_I 3 rd (ld_f3 k) rs1 off) = 3) by (unfold enc_I; flds; apply fld_all; lia). lia.
  - assert (H6 : fld 6 0 (enc_S 35 (st_f3 k) rs1 rs2 off) = 35) by (unfold enc_S; flds; apply fld_all; lia). lia.
  - rewrite enc_I_R in HL.
    pose proof (enc_R_flds 19 rd (iop_f3 o) rs1 (fld 4 0 imm) (fld 11 5 imm)
      ltac:(lia) ltac:(lia) ltac:(rng_f3) ltac:(lia) ltac:(rng) ltac:(rng)) as F. cbv zeta in F.
    destruct o; cbn [iop_f3] in *; lia.
  - pose proof (enc_R_flds 19 rd (shop_f3 o) rs1 sh (shop_f7 o)
      ltac:(lia) ltac:(lia) ltac:(rng_f3) ltac:(lia) ltac:(lia) ltac:(rng_f3)) as F. cbv zeta in F.
    destruct o; cbn [shop_f3 shop_f7] in *; lia.
  - pose proof (enc_R_flds 51 rd (rop_f3 o) rs1 rs2 (rop_f7 o)
      ltac:(lia) ltac:(lia) ltac:(rng_f3) ltac:(lia) ltac:(lia) ltac:(rng_f3)) as F. cbv zeta in F. lia.
  - pose proof (enc_R_flds 51 rd (mop_f3 o) rs1 rs2 1
      ltac:(lia) ltac:(lia) ltac:(rng_f3) ltac:(lia) ltac:(lia) ltac:(lia)) as F. cbv zeta in F. lia.
Qed.

(** ** Parser *)
Lemma rd_id_range o : 0 <= rd_id o < 64. Proof. destruct o; cbn; lia. Qed.
Lemma ram_id_range o : 0 <= ram_id o < 32. Proof. destruct o; cbn; lia. Qed.
Lemma pc_id_range o : 0 <= pc_id o < 32. Proof. destruct o; cbn; lia. Qed.

Lemma lor_cat a k b : 0 <= k -> 0 <= a < 2 ^ k -> Z.lor (b * 2 ^ k) a = cat a k b.
Proof.
  intros. apply Z.bits_inj'. intros n Hn.
  rewrite Z.lor_spec, testbit_cat by lia.
  destruct (Z.ltb_spec n k).
  - rewrite Z.mul_pow2_bits_low by lia. reflexivity.
  - rewrite Z.mul_pow2_bits by lia. rewrite (testbit_hi a k) by lia. apply orb_false_r.
Qed.
Lemma i64_small x : 0 <= x < 2 ^ 63 -> i64 x = x.
Proof. intros. unfold i64. cbv zeta. rewrite Z.mod_small by lia. destruct (Z.ltb_spec x 9223372036854775808); lia. Qed.

Lemma pack_cat rs2 rs1 rd rdw memw pcw :
  0 <= rs2 < 2 ^ 5 -> 0 <= rs1 < 2 ^ 5 -> 0 <= rd < 2 ^ 5 -> 0 <= rdw < 2 ^ 6 -> 0 <= memw < 2 ^ 5 -> 0 <= pcw < 2 ^ 5 ->
  pack_fields rs2 rs1 rd rdw memw pcw =
  cat pcw 5 (cat memw 5 (cat rdw 6 (cat rd 5 (cat rs1 5 rs2)))).
Proof.
  intros. unfold pack_fields. rewrite !Z.shiftl_mul_pow2 by lia.
  rewrite !i64_small by lia.
  replace (rs2 * 2 ^ 26) with ((rs2 * 2 ^ 5) * 2 ^ 21) by lia.
  rewrite <- (Z.shiftl_mul_pow2 (rs2 * 2 ^ 5)), <- (Z.shiftl_mul_pow2 rs1) by lia.
  rewrite <- Z.shiftl_lor, lor_cat by lia. rewrite Z.shiftl_mul_pow2 by lia.
  set (A := cat rs1 5 rs2). replace (A * 2 ^ 21) with ((A * 2 ^ 5) * 2 ^ 16) by lia.
  rewrite <- (Z.shiftl_mul_pow2 (A * 2 ^ 5)), <- (Z.shiftl_mul_pow2 rd) by lia.
  rewrite <- Z.shiftl_lor, lor_cat by lia. rewrite Z.shiftl_mul_pow2 by lia.
  set (B := cat rd 5 A). replace (B * 2 ^ 16) with ((B * 2 ^ 6) * 2 ^ 10) by lia.
  rewrite <- (Z.shiftl_mul_pow2 (B * 2 ^ 6)), <- (Z.shiftl_mul_pow2 rdw) by lia.
  rewrite <- Z.shiftl_lor, lor_cat by lia. rewrite Z.shiftl_mul_pow2 by lia.
  set (C := cat rdw 6 B). replace (C * 2 ^ 10) with ((C * 2 ^ 5) * 2 ^ 5) by lia.
  rewrite <- (Z.shiftl_mul_pow2 (C * 2 ^ 5)), <- (Z.shiftl_mul_pow2 memw) by lia.
  rewrite <- Z.shiftl_lor, lor_cat by lia. rewrite Z.shiftl_mul_pow2 by lia.
  apply lor_cat; lia.
Qed.

Lemma land_shiftr_fld x s k m : 0 <= s -> 0 < k -> m = 2 ^ k - 1 ->
  Z.land (Z.shiftr x s) m = fld (s + k - 1) s x.
Proof.
  intros Hs Hk ->.
  replace (2 ^ k - 1) with (Z.ones k) by (rewrite Z.ones_equiv; lia).
  rewrite Z.land_ones by lia. rewrite Z.shiftr_div_pow2 by lia.
  unfold fld. f_equal. f_equal. lia.
Qed.

Lemma unpack_pack rs2 rs1 rd rdw memw pcw :
  0 <= rs2 < 2 ^ 5 -> 0 <= rs1 < 2 ^ 5 -> 0 <= rd < 2 ^ 5 -> 0 <= rdw < 2 ^ 6 -> 0 <= memw < 2 ^ 5 -> 0 <= pcw < 2 ^ 5 ->
  let d := pack_fields rs2 rs1 rd rdw memw pcw in
  Z.land (Z.shiftr d 26) 0x1F = rs2 /\ Z.land (Z.shiftr d 21) 0x1F = rs1 /\
  Z.land (Z.shiftr d 16) 0x1F = rd /\ Z.land (Z.shiftr d 10) 0x3F = rdw /\
  Z.land (Z.shiftr d 5) 0x1F = memw /\ Z.land d 0x1F = pcw.
Proof.
  intros. subst d. rewrite pack_cat by auto.
  set (D := cat pcw 5 _).
  replace (Z.land D 31) with (Z.land (Z.shiftr D 0) 31) by (rewrite Z.shiftr_0_r; reflexivity).
  rewrite (land_shiftr_fld D 26 5), (land_shiftr_fld D 21 5), (land_shiftr_fld D 16 5),
    (land_shiftr_fld D 10 6), (land_shiftr_fld D 5 5), (land_shiftr_fld D 0 5) by (reflexivity || lia).
  subst D. zconst. cbn [Z.add Pos.add Pos.succ Pos.add_carry].
  repeat split.
  all: change (26 + 5 - 1) with 30; change (21 + 5 - 1) with 25; change (16 + 5 - 1) with 20;
    change (10 + 6 - 1) with 15; change (5 + 5 - 1) with 9; change (0 + 5 - 1) with 4; flds;
    apply fld_all; lia.
Qed.

Lemma get_registers_range dbg w rs2 rs1 rd :
  word w -> get_registers dbg w = Some (rs2, rs1, rd) ->
  0 <= rs2 < 2 ^ 5 /\ 0 <= rs1 < 2 ^ 5 /\ 0 <= rd < 2 ^ 5.
Proof.
  intros Hw. rewrite get_registers_dbg.
  unfold get_registers, get_rs1, get_rs2, get_rd, dbg_guard.
  rewrite (getf_rs1 _ Hw), (getf_rs2 _ Hw), (getf_rd _ Hw). rngs w.
  destruct (get_type w) as [[]|]; intros E; inversion E; subst; lia.
Qed.

(** invariant of a parser: entry [i] describes word [i] of the sequence *)
Definition entry (dbg : bool) (w imm ins : Z) : Prop :=
  exists o1 o2 o3 rs2 rs1 rd,
    decoded dbg w (o1, o2, o3) (rs2, rs1, rd) imm /\
    ins = pack_fields rs2 rs1 rd (rd_id o1) (ram_id o2) (pc_id o3).

Lemma parser_add_entry dbg p w p' :
  parser_add dbg p w = Some p' ->
  exists imm ins, entry dbg w imm ins /\
    p_imm p' = p_imm p ++ [imm] /\ p_ins p' = p_ins p ++ [ins] /\ p_raw p' = p_raw p ++ [w].
Proof.
  unfold parser_add.
  destruct (get_registers dbg w) as [[[rs2 rs1] rd]|] eqn:Hr; [|discriminate].
  destruct (get_opid dbg w) as [[[o1 o2] o3]|] eqn:Ho; [|discriminate].
  destruct (get_imm dbg w) as [imm|] eqn:Hi; [|discriminate].
  intros E. injection E as <-. cbn [p_imm p_ins p_raw].
  exists imm, (pack_fields rs2 rs1 rd (rd_id o1) (ram_id o2) (pc_id o3)).
  split; [|auto]. exists o1, o2, o3, rs2, rs1, rd. unfold decoded. auto.
Qed.

Lemma parser_add_all_entries dbg ws : forall p p',
  parser_add_all dbg p ws = Some p' ->
  exists imms inss,
    Forall2 (fun w e => entry dbg w (fst e) (snd e)) ws (combine imms inss) /\
    length imms = length ws /\ length inss = length ws /\
    p_imm p' = p_imm p ++ imms /\ p_ins p' = p_ins p ++ inss /\ p_raw p' = p_raw p ++ ws.
Proof.
  induction ws as [|w ws IH]; intros p p' H; cbn [parser_add_all] in H.
  - injection H as <-. exists [], []. rewrite !app_nil_r. cbn. auto 10.
  - destruct (parser_add dbg p w) as [p1|] eqn:E; [|discriminate].
    destruct (parser_add_entry _ _ _ _ E) as (imm & ins & He & H1 & H2 & H3).
    destruct (IH _ _ H) as (imms & inss & HF & L1 & L2 & I1 & I2 & I3).
    exists (imm :: imms), (ins :: inss). cbn [combine length].
    rewrite I1, I2, I3, H1, H2, H3, <- !app_assoc. cbn [app].
    repeat split; auto.
Qed.

Lemma Forall2_nth A B (P : A -> B -> Prop) l1 l2 i a :
  Forall2 P l1 l2 -> nth_error l1 i = Some a -> exists b, nth_error l2 i = Some b /\ P a b.
Proof.
  intros H. revert i. induction H; intros [|i] E; cbn in *; try discriminate; eauto.
  injection E as <-. eauto.
Qed.
Lemma nth_combine A B (l1 : list A) (l2 : list B) i a b :
  nth_error (combine l1 l2) i = Some (a, b) -> nth_error l1 i = Some a /\ nth_error l2 i = Some b.
Proof.
  revert l2 i. induction l1 as [|x l1 IH]; intros [|y l2] [|i] H; cbn in *; try discriminate.
  - injection H as -> ->. auto.
  - auto.
Qed.

Lemma parser_lookup dbg ws p i w :
  Forall word ws -> parser_add_all dbg parser_new ws = Some p ->
  nth_error ws i = Some w ->
  exists o1 o2 o3 rs2 rs1 rd imm,
    decoded dbg w (o1, o2, o3) (rs2, rs1, rd) imm /\
    parser_get p i = Some (imm, rs2, rs1, rd, rd_id o1, ram_id o2, pc_id o3) /\
    parser_get_raw p i = Some w.
Proof.
  intros HW H Hn.
  destruct (parser_add_all_entries _ _ _ _ H) as (imms & inss & HF & L1 & L2 & I1 & I2 & I3).
  cbn [parser_new p_imm p_ins p_raw app] in I1, I2, I3.
  destruct (Forall2_nth _ _ _ _ _ _ _ HF Hn) as ([imm ins] & Hc & He).
  apply nth_combine in Hc as [Hc1 Hc2]. cbn [fst snd] in He.
  destruct He as (o1 & o2 & o3 & rs2 & rs1 & rd & Hd & ->).
  exists o1, o2, o3, rs2, rs1, rd, imm. split; [exact Hd|].
  unfold parser_get, parser_get_raw. rewrite I1, I2, I3, Hc1, Hc2, Hn. split; [|reflexivity].
  assert (Hw : word w) by (eapply Forall_forall; [exact HW|]; eapply nth_error_In; eauto).
  destruct (get_registers_range dbg w rs2 rs1 rd Hw) as (R1 & R2 & R3); [apply Hd|].
  pose proof (rd_id_range o1). pose proof (ram_id_range o2). pose proof (pc_id_range o3).
  destruct (unpack_pack rs2 rs1 rd (rd_id o1) (ram_id o2) (pc_id o3)) as (U1 & U2 & U3 & U4 & U5 & U6);
    try lia.
  rewrite U1, U2, U3, U4, U5, U6. reflexivity.
Qed.

Lemma parser_add_all_app dbg ws1 : forall ws2 p,
  parser_add_all dbg p (ws1 ++ ws2) =
  match parser_add_all dbg p ws1 with Some p1 => parser_add_all dbg p1 ws2 | None => None end.
Proof.
  induction ws1 as [|w ws1 IH]; intros; cbn [parser_add_all app]; [reflexivity|].
  destruct (parser_add dbg p w); auto.
Qed.

Lemma parser_stable dbg p w p' i :
  (i < length (p_ins p))%nat -> (i < length (p_imm p))%nat -> (i < length (p_raw p))%nat ->
  parser_add dbg p w = Some p' ->
  parser_get p' i = parser_get p i /\ parser_get_raw p' i = parser_get_raw p i.
Proof.
  intros L1 L2 L3 H. destruct (parser_add_entry _ _ _ _ H) as (imm & ins & _ & H1 & H2 & H3).
  unfold parser_get, parser_get_raw. rewrite H1, H2, H3, !nth_error_app1 by assumption. auto.
Qed.

Lemma parser_accepts dbg ws : Forall (accepted dbg) ws ->
  forall p, exists p', parser_add_all dbg p ws = Some p'.
Proof.
  induction 1 as [|w ws (o & r & imm & H1 & H2 & H3) HF IH]; intros p; cbn [parser_add_all]; [eauto|].
  unfold parser_add. rewrite H1, H2, H3. destruct r as [[rs2 rs1] rd]. destruct o as [[o1 o2] o3]. apply IH.
Qed.
Lemma parser_rejects dbg ws : forall p p', parser_add_all dbg p ws = Some p' -> Forall (accepted dbg) ws.
Proof.
  induction ws as [|w ws IH]; intros p p' H; [constructor|]. cbn [parser_add_all] in H.
  destruct (parser_add dbg p w) as [p1|] eqn:E; [|discriminate].
  constructor; [|eauto].
  destruct (parser_add_entry _ _ _ _ E) as (imm & ins & (o1 & o2 & o3 & rs2 & rs1 & rd & Hd & _) & _).
  do 3 eexists. exact Hd.
Qed.

Lemma illegal_accepted : exists w, word w /\ accepted true w /\ ~ legal_word w.
Proof.
  (* slli x1, x2, 3 with funct7 = 1 *)
  exists 0x02311093. split; [unfold word; lia|]. split.
  - exists (RSLLI, MNONE, PNONE), (0, 2, 1), 3. vm_compute. auto.
  - intros (i & Hl & He). apply (legal_not_lenient i Hl). rewrite He. left. vm_compute. repeat split. discriminate.
Qed.
Lemma lenient_disjoint w : legal_word w -> ~ lenient w.
Proof. intros (i & Hl & <-). apply legal_not_lenient; auto. Qed.

Lemma lenient_meaning dbg w o r imm :
  word w -> lenient w -> decoded dbg w o r imm ->
    (fld 6 0 w = 19 /\ o = (RSLLI, MNONE, PNONE)) \/
    (fld 6 0 w = 103 /\ o = (RJALR, MNONE, PJALR)) \/
    (fld 6 0 w = 115 /\ o = (RNONE, MNONE, PNONE) /\ r = (0, 0, 0) /\ imm = 0).
Proof.
  intros Hw H. dec_unfold Hw.
  destruct H as [(H0 & H1 & H2)|[(H0 & H1)|H0]]; rewrite H0.
  - rewrite H1. cbn -[fld]. intros (E1 & E2 & E3). left. split; congruence.
  - cbn -[fld i_get]. intros (E1 & E2 & E3). right; left. split; congruence.
  - cbn -[fld]. intros (E1 & E2 & E3). right; right. repeat split; congruence.
Qed.

Lemma get_imm_isa dbg w f :
  word w -> format w = Some f ->
  get_imm dbg w = Some
      match f with
      | FmtI => to_word (imm_I w) | FmtSh => imm_sh w | FmtS => to_word (imm_S w)
      | FmtB => to_word (imm_B w) | FmtU => imm_U w | FmtJ => to_word (imm_J w)
      end.
Proof.
  intros Hw Hf. rewrite (get_imm_fmt dbg w f Hw Hf). f_equal.
  destruct f; cbn [getter_imm].
  - apply i_get_spec; auto. - apply getf_shamt; auto. - apply s_get_spec; auto.
  - apply b_get_spec; auto. - apply u_get_spec; auto. - apply j_get_spec; auto.
Qed.

Lemma accessors_total f w v : setter false f w v <> None /\ getter false f w <> None.
Proof. destruct f; cbn; split; discriminate. Qed.

Lemma parser_iff dbg ws :
  (exists p, parser_add_all dbg parser_new ws = Some p) <-> Forall (accepted dbg) ws.
Proof. split; [intros (p & H); eapply parser_rejects; eauto|intros; apply parser_accepts; auto]. Qed.

Lemma parser_add_keeps dbg ws p p' w i :
  parser_add_all dbg parser_new ws = Some p -> parser_add dbg p w = Some p' -> (i < length ws)%nat ->
  parser_get p' i = parser_get p i /\ parser_get_raw p' i = parser_get_raw p i.
Proof.
  intros H1 H2 Hi.
  destruct (parser_add_all_entries _ _ _ _ H1) as (imms & inss & _ & L1 & L2 & I1 & I2 & I3).
  cbn [parser_new p_imm p_ins p_raw app] in *.
  eapply parser_stable; [| | |exact H2]; rewrite ?I1, ?I2, ?I3; lia.
Qed.
