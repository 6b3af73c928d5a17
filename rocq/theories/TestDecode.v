(** * The reference VM's decoder (proofs) *)
Require Import ZArith Lia Bool List.
Require Import ZifyBool.
From Verif Require Import Word Isa Bits Codec CodecSpec CodecBits CodecFacts DecodeSpec DecodeFacts
  DecodeAccept EvalFacts TestSpec.
From Verif Require TestVM.
Import ListNotations.
Open Scope Z_scope.
Ltac Zify.zify_post_hook ::= idtac.

Lemma isa_of_complete i : legal i -> isa_of (encode i) = Some i.
Proof.
  intros Hl. pose proof (decode_legal false i Hl) as [Hw Hd].
  destruct (accepted_iff false (encode i) Hw) as [HA _].
  (* the instruction found by fields is legal and has the same encoding and decoding *)
  destruct (isa_of (encode i)) as [j|] eqn:E.
  - destruct (isa_of_sound _ _ Hw E) as [Hj Ej].
    pose proof (decode_legal false j Hj) as [_ Hdj]. rewrite Ej in Hdj.
    destruct Hd as (A1 & A2 & A3), Hdj as (B1 & B2 & B3). f_equal.
    rewrite A1 in B1. rewrite A2 in B2. rewrite A3 in B3.
    injection B1 as B1. injection B2 as B2. injection B3 as B3.
    assert (TW : forall a b, - 2 ^ 20 <= a < 2 ^ 20 -> - 2 ^ 20 <= b < 2 ^ 20 ->
              to_word a = to_word b -> a = b).
    { intros a b Ha Hb H. unfold to_word in H.
      Z.div_mod_to_equations. lia. }
    destruct i, j; cbn [ops_of regs_of imm_of legal] in *; try discriminate B1;
      try (destruct c; discriminate B1); try (destruct k; discriminate B1);
      try (destruct o; discriminate B1);
      repeat match goal with
      | H : (_, _, _) = (_, _, _) |- _ => injection H; clear H; intros
      end; subst;
      try (apply TW in B3; [|lia|lia]; subst); try reflexivity.
    all: try (destruct c, c0; (reflexivity || discriminate)).
    all: try (destruct k, k0; (reflexivity || discriminate)).
    all: try (destruct o, o0; (reflexivity || discriminate)).
    all: try (destruct k; discriminate).
    all: try (destruct o; discriminate).
    all: try (destruct o, o0; discriminate).
    all: try (destruct o, k; discriminate).
  - exfalso. destruct (get_opid_isa false (encode i) Hw) as [N|N].
    + destruct Hd as (A1 & _). congruence.
    + congruence.
    + revert N. apply legal_not_lenient. exact Hl.
Qed.

Lemma ext_fld w s k : 0 <= s -> 0 < k < 32 -> T.extract_bits (Z.shiftr w s) k = fld (s + k - 1) s w.
Proof.
  intros. unfold T.extract_bits. apply land_shiftr_fld; [lia|lia|].
  rewrite shl32_mul by lia. rewrite Z.mul_1_l.
  rewrite to_word_small; [reflexivity|]. unfold word.
  split; [apply Z.pow_nonneg; lia|apply Z.pow_lt_mono_r; lia].
Qed.
Lemma ext_fld0 w k : 0 < k < 32 -> T.extract_bits w k = fld (k - 1) 0 w.
Proof.
  intros. rewrite <- (Z.shiftr_0_r w) at 1. rewrite ext_fld by lia. f_equal.
Qed.

Lemma u32_fold (c : nat -> Z) l : forall v,
  fold_left (fun o i => u32 (o + c i)) l (u32 v) = u32 (fold_left (fun o i => o + c i) l v).
Proof.
  induction l as [|i l IH]; intros v; cbn [fold_left]; [reflexivity|].
  rewrite <- IH. f_equal. unfold u32. rewrite Z.add_mod_idemp_l by lia. reflexivity.
Qed.
Lemma pow_sum : forall m n v, 0 <= v ->
  fold_left (fun o i => o + 2 ^ Z.of_nat i) (seq n m) v = v + 2 ^ Z.of_nat (n + m) - 2 ^ Z.of_nat n.
Proof.
  induction m as [|m IH]; intros n v Hv; cbn [seq fold_left].
  - rewrite Nat.add_0_r. lia.
  - rewrite IH by lia. replace (S n + m)%nat with (n + S m)%nat by lia.
    rewrite (Nat2Z.inj_succ n), Z.pow_succ_r by lia. lia.
Qed.
Lemma fold_ext A B (f g : A -> B -> A) l : forall a,
  (forall x y, In y l -> f x y = g x y) -> fold_left f l a = fold_left g l a.
Proof.
  induction l as [|y l IH]; intros a H; cbn; [reflexivity|].
  rewrite H by (left; reflexivity). apply IH. intros. apply H. right. assumption.
Qed.

Lemma sign_extend_spec v n :
  1 <= n <= 31 -> 0 <= v < 2 ^ n -> T.sign_extend v n = Some (to_word (signed n v)).
Proof.
  intros Hn Hv. unfold T.sign_extend.
  rewrite Z.shiftr_div_pow2, Z.div_small by lia. cbn [Z.eqb]. f_equal.
  assert (Hp : 2 ^ n < 2 ^ 32) by (apply Z.pow_lt_mono_r; lia).
  assert (Hww : word v) by (unfold word; lia).
  assert (Hsh : Z.shiftr v (n - 1) = if v <? 2 ^ (n - 1) then 0 else 1).
  { rewrite Z.shiftr_div_pow2 by lia.
    assert (2 ^ n = 2 * 2 ^ (n - 1)) by (rewrite <- Z.pow_succ_r by lia; f_equal; lia).
    destruct (Z.ltb_spec v (2 ^ (n - 1))); [apply Z.div_small; lia|].
    symmetry. apply Z.div_unique with (v - 2 ^ (n - 1)); lia. }
  rewrite Hsh. unfold signed, low. rewrite (Z.mod_small v) by lia.
  rewrite <- (to_word_small v Hww) at 1. change (to_word v) with (u32 v) at 1.
  destruct (v <? 2 ^ (n - 1)).
  - rewrite u32_fold. change (Z.land 0 1) with 0.
    apply (f_equal u32).
    transitivity (fold_left (fun o (_ : nat) => o) (seq (Z.to_nat n) (32 - Z.to_nat n)) v).
    + apply fold_ext. intros. rewrite shl32_mul by lia. cbn [Z.mul]. cbn. lia.
    + induction (seq _ _); cbn; auto.
  - rewrite u32_fold. change (Z.land 1 1) with 1.
    transitivity (u32 (fold_left (fun o i => o + 2 ^ Z.of_nat i) (seq (Z.to_nat n) (32 - Z.to_nat n)) v)).
    + f_equal. apply fold_ext. intros x y Hy. apply in_seq in Hy. rewrite shl32_mul by lia.
      rewrite Z.mul_1_l, to_word_small; [reflexivity|]. unfold word.
      split; [apply Z.pow_nonneg; lia|apply Z.pow_lt_mono_r; lia].
    + rewrite pow_sum by lia. replace (Z.of_nat (Z.to_nat n + (32 - Z.to_nat n))) with 32 by lia.
      rewrite Z2Nat.id by lia. unfold u32, to_word.
      replace (v + 2 ^ 32 - 2 ^ n) with (v - 2 ^ n + 1 * 2 ^ 32) by lia.
      apply Z.mod_add. lia.
Qed.

Lemma shl_fld hi lo w k : 0 <= lo <= hi -> 0 <= k -> hi - lo + 1 + k <= 32 ->
  shl32 (fld hi lo w) k = 2 ^ k * fld hi lo w.
Proof.
  intros. rewrite shl32_mul by lia. rewrite Z.mul_comm. apply to_word_small.
  pose proof (fld_range hi lo w ltac:(lia)) as R. unfold word. split; [nia|].
  apply Z.lt_le_trans with (2 ^ k * 2 ^ (hi - lo + 1)).
  - apply Z.mul_lt_mono_pos_l; lia.
  - rewrite <- Z.pow_add_r by lia. apply Z.pow_le_mono_r; lia.
Qed.

Lemma imm_J_sum w :
  shl32 (fld 30 21 w) 1 + shl32 (fld 20 20 w) 11 + shl32 (fld 19 12 w) 12 + shl32 (fld 31 31 w) 20 =
  cat 0 1 (cat (fld 30 21 w) 10 (cat (fld 20 20 w) 1 (cat (fld 19 12 w) 8 (fld 31 31 w)))).
Proof. rewrite !shl_fld by lia. unfold cat. ring. Qed.
Lemma imm_B_sum w :
  shl32 (fld 11 8 w) 1 + shl32 (fld 30 25 w) 5 + shl32 (fld 7 7 w) 11 + shl32 (fld 31 31 w) 12 =
  cat 0 1 (cat (fld 11 8 w) 4 (cat (fld 30 25 w) 6 (cat (fld 7 7 w) 1 (fld 31 31 w)))).
Proof. rewrite !shl_fld by lia. unfold cat. ring. Qed.
Lemma imm_S_sum w :
  fld 11 7 w + shl32 (fld 31 25 w) 5 = cat (fld 11 7 w) 5 (fld 31 25 w).
Proof. rewrite !shl_fld by lia. unfold cat. ring. Qed.

Lemma se_I w : T.sign_extend (fld 31 20 w) 12 = Some (to_word (imm_I w)).
Proof. apply sign_extend_spec; [lia|]. apply (fld_range 31 20). lia. Qed.
Lemma se_S w : T.sign_extend (fld 11 7 w + shl32 (fld 31 25 w) 5) 12 = Some (to_word (imm_S w)).
Proof.
  rewrite imm_S_sum. apply sign_extend_spec; [lia|]. change 12 with (5 + 7).
  apply cat_range; [lia|lia|apply (fld_range 11 7); lia|apply (fld_range 31 25); lia].
Qed.
Lemma se_B w : T.sign_extend (shl32 (fld 11 8 w) 1 + shl32 (fld 30 25 w) 5 + shl32 (fld 7 7 w) 11 + shl32 (fld 31 31 w) 12) 13
  = Some (to_word (imm_B w)).
Proof.
  rewrite imm_B_sum. apply sign_extend_spec; [lia|]. change 13 with (1 + (4 + (6 + (1 + 1)))).
  repeat (apply cat_range; try lia; try rng).
Qed.
Lemma se_J w : T.sign_extend (shl32 (fld 30 21 w) 1 + shl32 (fld 20 20 w) 11 + shl32 (fld 19 12 w) 12 + shl32 (fld 31 31 w) 20) 21
  = Some (to_word (imm_J w)).
Proof.
  rewrite imm_J_sum. apply sign_extend_spec; [lia|]. change 21 with (1 + (10 + (1 + (8 + 1)))).
  repeat (apply cat_range; try lia; try rng).
Qed.

(** the decoder in terms of the manual's fields *)
Ltac t_fields :=
  unfold T.decode_inst; cbv zeta;
  repeat match goal with
  | |- context [T.extract_bits (Z.shiftr ?w ?s) ?k] =>
      let h := eval vm_compute in (s + k - 1) in
      rewrite (ext_fld w s k : _ -> _ -> _ = fld h s w) by lia
  | |- context [T.extract_bits ?w 7] =>
      rewrite (ext_fld0 w 7 : _ -> _ = fld 6 0 w) by lia
  end;
  rewrite !(land_shiftr_fld _ 30 1 1 : _ -> _ -> _ -> _ = fld 30 30 _),
    !(land_shiftr_fld _ 25 1 1 : _ -> _ -> _ -> _ = fld 25 25 _) by (reflexivity || lia);
  rewrite ?se_I, ?se_S, ?se_B, ?se_J.

Lemma bit30_f7 w : fld 30 30 w = (fld 31 25 w / 32) mod 2.
Proof.
  unfold fld. change (31 - 25 + 1) with 7. change (30 - 30 + 1) with 1.
  change (2 ^ 30) with (2 ^ 25 * 32). rewrite <- Z.div_div by lia.
  generalize (w / 2 ^ 25). intros x. change (2 ^ 1) with 2. change (2 ^ 7) with 128.
  Z.div_mod_to_equations. lia.
Qed.
Lemma bit25_f7 w : fld 25 25 w = fld 31 25 w mod 2.
Proof.
  unfold fld. change (31 - 25 + 1) with 7. change (25 - 25 + 1) with 1.
  generalize (w / 2 ^ 25). intros x. Z.div_mod_to_equations. lia.
Qed.

Lemma decode_isa w i : word w -> isa_of w = Some i -> T.decode_inst w = Some (t_of i).
Proof.
  intros Hw H. t_fields. unfold isa_of in H. cbv zeta in H.
  rewrite bit30_f7, bit25_f7. pose proof (f3_range w).
  assert (HU : shl32 (fld 31 12 w) 12 = to_word (imm_U w * 2 ^ 12)) by (rewrite shl32_mul by lia; reflexivity).
  case_eqb H; injection H as <-; cbn [t_of];
    repeat match goal with E : fld _ _ w = _ |- _ => rewrite E; revert E end; intros;
    cbn [Z.eqb Pos.eqb andb Z.modulo Z.div Z.div_eucl Z.pos_div_eucl]; try reflexivity.
  all: rewrite ?HU; try reflexivity.
  all: repeat match goal with |- context [?a =? ?b] => destruct (Z.eqb_spec a b) as [?E|?E]; try lia end;
    try reflexivity; try discriminate.
Qed.

Lemma decode_of_legal i : legal i -> T.decode_inst (encode i) = Some (t_of i).
Proof.
  intros H. apply decode_isa; [apply (decode_legal false i H)|apply isa_of_complete; exact H].
Qed.
Lemma t_ops_of i : t_ops (t_of i) = ops_of i.
Proof. destruct i; try destruct c; try destruct k; try destruct o; reflexivity. Qed.
Lemma t_regs_of i : t_regs (t_of i) = regs_of i.
Proof. destruct i; try destruct c; try destruct k; try destruct o; reflexivity. Qed.
Lemma t_imm_of i : legal i -> t_imm_is (t_of i) (imm_of i).
Proof.
  destruct i; try destruct c; try destruct k; try destruct o; cbn [t_of t_imm_is imm_of legal];
  intros; try reflexivity; split; try reflexivity; lia.
Qed.

(** C06 *)
Lemma decoders_agree dbg w t :
  word w -> T.decode_inst w = Some t -> accepted dbg w ->
  exists imm, decoded dbg w (t_ops t) (t_regs t) imm /\ t_imm_is t imm.
Proof.
  intros Hw Ht Ha. apply accepted_iff in Ha; [|exact Hw]. destruct Ha as [(i & Hl & <-)|HL].
  - rewrite decode_of_legal in Ht by exact Hl. injection Ht as <-.
    exists (imm_of i). rewrite t_ops_of, t_regs_of. split; [apply decode_legal; exact Hl|apply t_imm_of; exact Hl].
  - revert Ht. t_fields. destruct HL as [(H0 & H1 & H2)|[(H0 & H1)|H0]].
    + rewrite H0, H1. cbn [Z.eqb Pos.eqb]. intros Ht. injection Ht as <-.
      exists (fld 24 20 w). cbn [t_ops t_regs t_imm_is]. split; [|reflexivity].
      dec_unfold Hw. rewrite H0, H1. cbn -[fld]. auto.
    + rewrite H0. destruct (Z.eqb_spec (fld 14 12 w) 0); [congruence|]. discriminate.
    + rewrite H0. discriminate.
Qed.

(** exactly which words the reference decoder accepts *)
Lemma t_accepts w : word w -> (T.decode_inst w <> None <-> legal_word w \/ t_lenient w).
Proof.
  intros Hw. split.
  - intros H. destruct (isa_of w) as [i|] eqn:E.
    { left. exists i. apply isa_of_sound; auto. }
    right. unfold t_lenient. cbv zeta. revert H. t_fields. rewrite bit30_f7, bit25_f7.
    unfold isa_of in E. cbv zeta in E. pose proof (f3_range w). pose proof (f7_range w).
    set (op := fld 6 0 w) in *. set (f3 := fld 14 12 w) in *. set (f7 := fld 31 25 w) in *.
    clearbody op f3 f7. intros HN.
    destruct (Z.eqb_spec op 19).
    { subst op. cbn [Z.eqb Pos.eqb andb] in *.
      destruct (Z.eqb_spec f3 1); [subst f3; cbn [Z.eqb Pos.eqb] in E; destruct (Z.eqb_spec f7 0); [discriminate|lia]|].
      case_eqb E; lia. }
    destruct (Z.eqb_spec op 51).
    { subst op. cbn [Z.eqb Pos.eqb andb] in *. case_eqb E; lia. }
    exfalso. apply HN. clear HN.
    destruct (Z.eqb_spec op 55); [discriminate|]. destruct (Z.eqb_spec op 23); [discriminate|].
    destruct (Z.eqb_spec op 111); [discriminate|].
    destruct (Z.eqb_spec op 103); [subst op; destruct (Z.eqb_spec f3 0); [discriminate|reflexivity]|].
    cbn [andb].
    destruct (Z.eqb_spec op 99); [case_eqb E; repeat (match goal with |- context [?a =? ?b] => destruct (Z.eqb_spec a b); try lia end); reflexivity|].
    destruct (Z.eqb_spec op 3); [case_eqb E; repeat (match goal with |- context [?a =? ?b] => destruct (Z.eqb_spec a b); try lia end); reflexivity|].
    destruct (Z.eqb_spec op 35); [case_eqb E; repeat (match goal with |- context [?a =? ?b] => destruct (Z.eqb_spec a b); try lia end); reflexivity|].
    reflexivity.
  - intros [(i & Hl & <-)|HL].
    + rewrite decode_of_legal by exact Hl. discriminate.
    + t_fields. rewrite bit30_f7, bit25_f7. pose proof (f3_range w).
      unfold t_lenient in HL. cbv zeta in HL.
      destruct HL as [(H0 & H1 & H2)|[(H0 & H1 & H2)|(H0 & H1 & H2)]]; rewrite H0; try rewrite H1; cbn [Z.eqb Pos.eqb andb];
        repeat (match goal with |- context [?a =? ?b] => destruct (Z.eqb_spec a b) end); try discriminate; lia.
Qed.
