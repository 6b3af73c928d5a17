(** * Plaintext evaluation against the ISA (proofs) *)
Require Import ZArith Lia Bool List.
Require Import ZifyBool.
From Verif Require Import Word Isa Bits Codec CodecBits EvalPlain EvalSpec.
Import ListNotations.
Open Scope Z_scope.

Ltac Zify.zify_post_hook ::= Z.div_mod_to_equations.

Lemma u32_tw x : u32 x = to_word x. Proof. reflexivity. Qed.
Lemma to_word_small x : word x -> to_word x = x.
Proof. intros. apply Z.mod_small. exact H. Qed.
Lemma i32_s32 x : word x -> i32 x = s32 x.
Proof.
  intros H. unfold i32, s32, signed, low. unfold word in H.
  rewrite (Z.mod_small x) by lia. reflexivity.
Qed.
Lemma s32_cases x : word x -> s32 x = x \/ s32 x = x - 2 ^ 32.
Proof.
  intros. rewrite <- i32_s32 by auto. unfold i32. destruct (x <? 2147483648); auto.
Qed.
Lemma s32_range x : - 2 ^ 31 <= s32 x < 2 ^ 31.
Proof. apply (signed_range 32). lia. Qed.
Lemma to_word_s32 x y : word x -> to_word (y + s32 x) = to_word (y + x).
Proof.
  intros. destruct (s32_cases x H) as [-> | ->]; [reflexivity|].
  unfold to_word. replace (y + (x - 2 ^ 32)) with (y + x + (-1) * 2 ^ 32) by ring.
  apply Z.mod_add. lia.
Qed.
Lemma to_word_s32_0 x : word x -> to_word (s32 x) = x.
Proof.
  intros. change (s32 x) with (0 + s32 x). rewrite to_word_s32 by auto. apply to_word_small; auto.
Qed.
Lemma shl32_mul x k : 0 <= k -> shl32 x k = to_word (x * 2 ^ k).
Proof. intros. unfold shl32. rewrite Z.shiftl_mul_pow2 by lia. reflexivity. Qed.
Lemma shr32_div x k : 0 <= k -> shr32 x k = x / 2 ^ k.
Proof. intros. unfold shr32. apply Z.shiftr_div_pow2; lia. Qed.
Lemma sar32_div x k : word x -> 0 <= k -> sar32 x k = to_word (s32 x / 2 ^ k).
Proof. intros. unfold sar32. rewrite i32_s32, Z.shiftr_div_pow2 by (auto; lia). reflexivity. Qed.
Lemma land_1f x : Z.land x 31 = x mod 32.
Proof. change 31 with (Z.ones 5). rewrite Z.land_ones by lia. reflexivity. Qed.
Lemma land_ff x : Z.land x 255 = x mod 2 ^ 8.
Proof. change 255 with (Z.ones 8). rewrite Z.land_ones by lia. reflexivity. Qed.
Lemma land_ffff x : Z.land x 65535 = x mod 2 ^ 16.
Proof. change 65535 with (Z.ones 16). rewrite Z.land_ones by lia. reflexivity. Qed.
Lemma byte_0 w : byte 0 w = w mod 2 ^ 8.
Proof. unfold byte. cbn [Z.mul]. rewrite Z.pow_0_r, Z.div_1_r. reflexivity. Qed.
Lemma byte_range k w : 0 <= byte k w < 2 ^ 8.
Proof. apply Z.mod_pos_bound. reflexivity. Qed.
Lemma b2w_bw b : b2w b = bool_word b. Proof. reflexivity. Qed.

Lemma sext_7 x : word x -> sext (Z.land x 0xFF) 7 = to_word (signed 8 (byte 0 x)).
Proof.
  intros. rewrite byte_0. unfold sext.
  change (Z.land 0xFFFFFFFF (shl32 0xFFFFFFFF 7)) with 0xFFFFFF80. change (32 - 7) with 25. blast.
Qed.
Lemma sext_15 x : word x -> sext (Z.land x 0xFFFF) 15 = to_word (signed 16 (x mod 2 ^ 16)).
Proof.
  intros. unfold sext.
  change (Z.land 0xFFFFFFFF (shl32 0xFFFFFFFF 15)) with 0xFFFF8000. change (32 - 15) with 17. blast.
Qed.

Lemma rd_eval_rv32i o imm x y pc ram v :
  word imm -> word x -> word y -> word pc -> word ram ->
  rd_spec o imm x y pc ram = Some v -> rd_eval o imm x y pc ram = Some v.
Proof.
  intros Hi Hx Hy Hp Hr H.
  assert (H31 : forall z, 0 <= z mod 32) by (intro; lia).
  destruct o; cbn [rd_spec] in H; try discriminate H; injection H as <-;
    cbn [rd_eval]; f_equal; unfold alu_iop, alu_shop, alu_rop; rewrite ?b2w_bw, ?i32_s32 by auto;
    rewrite ?land_1f, ?land_ff, ?land_ffff; rewrite ?to_word_s32_0 by auto; auto using eq_sym.
  all: try (rewrite shl32_mul; auto; lia).
  all: try (rewrite shr32_div; auto; lia).
  all: try (rewrite sar32_div; auto; lia).
  - (* AUIPC *) unfold wadd. rewrite shl32_mul by lia. rewrite u32_tw. unfold to_word.
    apply Zplus_mod_idemp_r.
  - (* ADDI *) symmetry. apply to_word_s32. auto.
  - (* LB *) rewrite <- land_ff. apply sext_7. auto.
  - rewrite byte_0. reflexivity.
  - rewrite <- land_ffff. apply sext_15. auto.
Qed.

Lemma mulh_shift a : - 2 ^ 63 <= a < 2 ^ 63 -> u32 (Z.shiftr (i64 a) 32) = to_word (a / 2 ^ 32).
Proof.
  intros H. rewrite Z.shiftr_div_pow2 by lia. unfold u32, to_word.
  assert (i64 a = a) as ->; [|reflexivity].
  unfold i64. cbv zeta. destruct (Z.ltb_spec (a mod 18446744073709551616) 9223372036854775808); lia.
Qed.
Lemma mulhu_shift a : 0 <= a < 2 ^ 64 -> u32 (Z.shiftr (i64 a) 32) = a / 2 ^ 32.
Proof.
  intros H. rewrite Z.shiftr_div_pow2 by lia. unfold u32.
  unfold i64. cbv zeta. rewrite (Z.mod_small a) by lia.
  destruct (Z.ltb_spec a 9223372036854775808); [|]; change (2 ^ 32) with 4294967296; lia.
Qed.

Lemma s32_eq_min x : word x -> (i32 x =? -2147483648) = (x =? 2 ^ 31).
Proof. intros. unfold i32. unfold word in H. destruct (Z.ltb_spec x 2147483648); lia. Qed.

Lemma rd_eval_rv32m o imm x y pc ram m :
  word x -> word y -> mop_of o = Some m ->
  (match m with DIV | DIVU | REM => y <> 0 | _ => True end) ->
  rd_eval o imm x y pc ram = Some (alu_mop m x y).
Proof.
  intros Hx Hy Hm Hd. pose proof (s32_range x) as Rx. pose proof (s32_range y) as Ry.
  destruct o; try discriminate Hm; injection Hm as <-; cbn [rd_eval alu_mop]; rewrite ?i32_s32 by auto.
  - reflexivity.
  - rewrite mulh_shift by nia. reflexivity.
  - unfold word in Hy. rewrite mulh_shift by nia. reflexivity.
  - unfold word in Hx, Hy. rewrite mulhu_shift by nia. reflexivity.
  - destruct (Z.eqb_spec y 0); [lia|].
    destruct ((s32 x =? -2147483648) && (s32 y =? -1)) eqn:E.
    + assert (s32 x = - 2 ^ 31 /\ s32 y = -1) as [-> ->] by lia. reflexivity.
    + reflexivity.
  - destruct (Z.eqb_spec y 0); [lia|]. unfold word in *. rewrite Z.quot_div_nonneg by lia. reflexivity.
  - destruct (Z.eqb_spec y 0); [lia|].
    destruct (Z.eqb_spec x 0) as [->|]; [|].
    + change (s32 0) with 0. rewrite Z.rem_0_l; [reflexivity|].
      destruct (s32_cases y Hy); unfold word in *; lia.
    + destruct ((s32 x =? -2147483648) && (s32 y =? -1)) eqn:E.
      * assert (s32 x = - 2 ^ 31 /\ s32 y = -1) as [-> ->] by lia. reflexivity.
      * reflexivity.
  - destruct (Z.eqb_spec y 0); [reflexivity|]. unfold word in *. rewrite Z.rem_mod_nonneg by lia. reflexivity.
Qed.

Lemma pc_eval_spec o imm x y pc :
  word imm -> word x -> word y -> pc_eval o imm x y pc = pc_spec o imm x y pc.
Proof.
  intros Hi Hx Hy. unfold pc_spec. rewrite !to_word_s32 by auto.
  destruct o; cbn [pc_eval taken]; rewrite ?i32_s32 by auto; try reflexivity.
  - (* JALR *) cbv zeta. unfold wadd. rewrite u32_tw.
    set (t := to_word (x + imm)). assert (word t) by apply word_to_word. clearbody t.
    clear - H. apply word_bits_eq.
    + words.
    + unfold word in *. lia.
    + intros n Hn. open_words. bit_goal n Hn.
  - (* BGE *) rewrite Z.geb_leb. reflexivity.
  - rewrite Z.geb_leb. reflexivity.
Qed.

(** ** Stores *)
Lemma byte_fld k w : byte k w = fld (8 * k + 7) (8 * k) w.
Proof. unfold byte, fld. f_equal. f_equal. lia. Qed.

Lemma testbit_byte k w n : 0 <= k -> 0 <= n -> Z.testbit (byte k w) n = (n <? 8) && Z.testbit w (n + 8 * k).
Proof. intros. unfold byte. rewrite testbit_mod, Z.div_pow2_bits by lia. reflexivity. Qed.

Definition in_store (o : ram_op) (off k : Z) : bool := (off <=? k) && (k <? off + store_size o).

Lemma ram_eval_bytes o rs2 ram off k :
  word rs2 -> word ram -> 0 <= off < 4 -> aligned o off -> 0 <= k < 4 ->
  byte k (ram_eval o rs2 ram off) = if in_store o off k then byte (k - off) rs2 else byte k ram.
Proof.
  intros H2 Hr Ho Ha Hk. unfold in_store.
  assert (Ho' : off = 0 \/ off = 1 \/ off = 2 \/ off = 3) by lia.
  assert (Hk' : k = 0 \/ k = 1 \/ k = 2 \/ k = 3) by lia.
  destruct o; cbn [store_size aligned ram_eval] in *;
    destruct Ho' as [-> |[-> |[-> | ->]]]; try discriminate Ha; try (cbn in Ha; lia);
    cbn [Z.eqb Pos.eqb];
    destruct Hk' as [-> |[-> |[-> | ->]]]; cbn [Z.leb Z.ltb Z.compare Pos.compare Pos.compare_cont Z.add Pos.add Pos.succ andb Z.sub Z.opp Z.pos_sub Pos.pred_double];
    rewrite ?byte_fld; try reflexivity;
    (apply word_bits_eq; [apply word_fld; lia|apply word_fld; lia|]);
    intros n Hn; open_words; bit_goal n Hn.
Qed.

Lemma word_ram_eval o rs2 ram off : word rs2 -> word ram -> word (ram_eval o rs2 ram off).
Proof.
  intros. destruct o; cbn [ram_eval]; auto;
    repeat match goal with |- context [if ?b then _ else _] => destruct b end; words.
Qed.

Lemma rv32i_list_spec o imm x y pc ram : In o RD_RV32I <-> rd_spec o imm x y pc ram <> None.
Proof.
  split.
  - intros H. unfold RD_RV32I in H. cbn [In] in H.
    repeat (destruct H as [<-|H]; [cbn [rd_spec]; discriminate|]). contradiction.
  - intros H. destruct o; cbn [rd_spec] in H; try congruence; cbn [RD_RV32I In]; auto 40.
Qed.
Lemma div0_wrong imm x pc ram : word x -> rd_eval RDIV imm x 0 pc ram <> Some (alu_mop DIV x 0).
Proof. intros _. cbn. discriminate. Qed.
Lemma divu0_wrong imm x pc ram :
  word x -> x <> 2 ^ 32 - 1 -> rd_eval RDIVU imm x 0 pc ram <> Some (alu_mop DIVU x 0).
Proof. intros _ H E. apply H. cbn in E. injection E as E. rewrite E. reflexivity. Qed.
Lemma rem0_panics imm x pc ram : word x -> x <> 0 -> rd_eval RREM imm x 0 pc ram = None.
Proof.
  intros Hx H. cbn [rd_eval]. destruct (Z.eqb_spec x 0); [lia|].
  replace (i32 0 =? -1) with false by reflexivity. rewrite andb_false_r. reflexivity.
Qed.
Lemma sh_odd_wrong :
  exists rs2 ram off k, word rs2 /\ word ram /\ 0 <= off < 4 /\ 0 <= k < 4 /\
    in_store MSH off k = false /\ byte k (ram_eval MSH rs2 ram off) <> byte k ram.
Proof.
  exists 0, 0xFFFFFFFF, 1, 0. unfold word. repeat split; try lia; try reflexivity. vm_compute. discriminate.
Qed.
Lemma sh_odd_zero rs2 ram off : 0 <= off < 4 -> off mod 2 = 1 -> ram_eval MSH rs2 ram off = 0.
Proof.
  intros H1 H2. cbn [ram_eval]. destruct (Z.eqb_spec off 0), (Z.eqb_spec off 2); subst; try reflexivity; cbn in H2; lia.
Qed.
Lemma rv32m_wrong :
  exists o m imm x y pc ram, word x /\ word y /\ mop_of o = Some m /\
    rd_eval o imm x y pc ram <> Some (alu_mop m x y).
Proof.
  exists RDIV, DIV, 0, 7, 0, 0, 0. unfold word. repeat split; try lia. vm_compute. discriminate.
Qed.
