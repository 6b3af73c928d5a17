(** * One step of the reference VM is one ISA step (proofs) *)
Require Import ZArith Lia Bool List Arith.
Require Import ZifyBool.
From Verif Require Import Word Isa Bits EvalSpec EvalFacts ListFacts TestSpec TestRunSpec TestDecode TestRunFacts.
From Verif Require TestVM.
Import ListNotations.
Open Scope Z_scope.
Ltac Zify.zify_post_hook ::= idtac.

Lemma wadd_tw a b : wadd a (to_word b) = to_word (a + b).
Proof. unfold wadd, u32, to_word. apply Z.add_mod_idemp_r. lia. Qed.
Lemma wadd_tw_l a b : wadd (to_word a) b = to_word (b + a).
Proof. unfold wadd, u32, to_word. rewrite Z.add_comm. apply Z.add_mod_idemp_r. lia. Qed.
Lemma s32_to_word a : - 2 ^ 31 <= a < 2 ^ 31 -> s32 (to_word a) = a.
Proof. intros. unfold s32. change (to_word a) with (low 32 a). rewrite signed_low by lia. apply signed_small; lia. Qed.
Lemma i32_to_word a : - 2 ^ 31 <= a < 2 ^ 31 -> i32 (to_word a) = a.
Proof. intros. rewrite i32_s32 by apply to_word_word. apply s32_to_word; auto. Qed.
Lemma ext5 b : T.extract_bits b 5 = b mod 32.
Proof. apply land_1f. Qed.
Lemma ext8 b : T.extract_bits b 8 = b mod 2 ^ 8.
Proof. apply land_ff. Qed.
Lemma ext16 b : T.extract_bits b 16 = b mod 2 ^ 16.
Proof. apply land_ffff. Qed.

Lemma word_bool b : word (bool_word b). Proof. destruct b; cbv; split; congruence. Qed.
Lemma word_lxor a b : word a -> word b -> word (Z.lxor a b).
Proof. intros. words. Qed.
Lemma word_lor a b : word a -> word b -> word (Z.lor a b).
Proof. intros. words. Qed.
Lemma word_land a b : word a -> word b -> word (Z.land a b).
Proof. intros. words. Qed.
Lemma word_div a k : word a -> 0 <= k -> word (a / 2 ^ k).
Proof.
  intros H Hk. unfold word in *. assert (0 < 2 ^ k) by (apply Z.pow_pos_nonneg; lia).
  split; [apply Z.div_pos; lia|]. apply Z.le_lt_trans with a; [|lia]. apply Z.div_le_upper_bound; nia.
Qed.
Lemma jalr_even t : word t -> shl32 (shr32 t 1) 1 = t - t mod 2.
Proof.
  intros. rewrite shl32_mul, shr32_div by lia. change (2 ^ 1) with 2.
  replace (t / 2 * 2) with (t - t mod 2) by (pose proof (Z.div_mod t 2 ltac:(lia)); lia).
  apply to_word_small. unfold word in *. pose proof (Z.mod_pos_bound t 2 ltac:(lia)).
  pose proof (Z.mod_le t 2 ltac:(lia) ltac:(lia)). lia.
Qed.
Lemma u64_i64 a : u64 (i64 a) = u64 a.
Proof.
  unfold u64, i64. destruct (a mod 18446744073709551616 <? 9223372036854775808).
  - apply Z.mod_mod. lia.
  - replace (a mod 18446744073709551616 - 18446744073709551616)
      with (a mod 18446744073709551616 + (-1) * 18446744073709551616) by lia.
    rewrite Z.mod_add by lia. apply Z.mod_mod. lia.
Qed.
Lemma hi32 a : u32 (Z.shiftr (u64 a) 32) = to_word (a / 2 ^ 32).
Proof.
  rewrite Z.shiftr_div_pow2 by lia. unfold u32, u64, to_word.
  change 18446744073709551616 with (2 ^ 32 * 2 ^ 32). change 4294967296 with (2 ^ 32).
  rewrite Z.rem_mul_r by lia. rewrite Z.mul_comm, Z.div_add by lia.
  rewrite (Z.div_small (a mod 2 ^ 32)) by (apply Z.mod_pos_bound; lia).
  rewrite Z.add_0_l. apply Z.mod_mod. lia.
Qed.
Lemma ld16_range mm a : is_byte (ld8 mm a) -> is_byte (ld8 mm (a + 1)) -> 0 <= ld16 mm a < 2 ^ 16.
Proof. unfold is_byte, ld16. lia. Qed.
Lemma ld32_range mm a : is_byte (ld8 mm a) -> is_byte (ld8 mm (a + 1)) -> is_byte (ld8 mm (a + 2)) -> is_byte (ld8 mm (a + 3)) ->
  word (ld32 mm a).
Proof. unfold is_byte, ld32, ld16, word. replace (a + 2 + 1) with (a + 3) by lia. lia. Qed.
Lemma half_ok_spec a : T.half_ok a = negb (a mod 4 =? 3).
Proof.
  unfold T.half_ok. Z.div_mod_to_equations. lia.
Qed.

Lemma run_fin chk s i : legal i -> T.read_word chk (T.rom s) (T.pc s) = Some (encode i) ->
  T.run chk s = fin (T.exec chk s (t_of i)).
Proof. intros Hl H. unfold T.run. rewrite H, decode_of_legal by exact Hl. reflexivity. Qed.

Ltac seqP := unfold pc_overflow, refused, div_trap, sequential; tauto.

Lemma exec_step chk s m i :
  vm_ok s -> shows s m -> legal i -> stays_in (T.ram s) i m ->
  outcome s (fin (T.exec chk s (t_of i))) (isa_step i m)
    (refused i m \/ pc_overflow chk i m \/ div_trap i m).
Proof.
  intros Hok Hsh Hl Hin.
  assert (RG : forall r, reg r -> T.register s r = Some (get (m_rf m) r)) by (intros; apply reg_get; auto).
  assert (RW : forall r, reg r -> word (get (m_rf m) r)) by (intros; eapply reg_word; eauto).
  pose proof Hok as (_ & _ & _ & HPW & Hmem). pose proof Hsh as (HPC & _ & Hsm).
  destruct i; cbn [legal] in Hl.
  - (* LUI *) cbn [t_of T.exec isa_step]. apply set_rd_out; auto; [tauto|apply to_word_word|seqP].
  - (* AUIPC *) cbn [t_of T.exec isa_step]. rewrite wadd_tw_l, HPC.
    apply set_rd_out; auto; [tauto|apply to_word_word|seqP].
  - (* JAL *) cbn [t_of T.exec isa_step]. rewrite wadd_tw, HPC.
    apply link_out; auto; [tauto|apply to_word_word|].
    unfold pc_overflow, refused, div_trap, sequential. cbn [isa_step m_pc]. tauto.
  - (* JALR *) cbn [t_of T.exec isa_step]. rewrite RG by tauto. rewrite wadd_tw, jalr_even by apply to_word_word.
    apply link_out; auto; [tauto| |].
    + rewrite <- jalr_even by apply to_word_word. unfold shl32. apply to_word_word.
    + unfold pc_overflow, refused, div_trap, sequential. cbn [isa_step m_pc]. tauto.
  - (* BRANCH *) destruct c; cbn [t_of T.exec isa_step]; rewrite !RG by tauto;
    (match goal with |- outcome _ (fin (T.branch _ _ ?b _)) {| m_pc := if ?b' then _ else _ |} _ =>
      replace b with b' end);
    try (apply branch_out; auto;
      unfold pc_overflow, refused, div_trap, sequential; cbn [isa_step m_pc];
      match goal with |- context [taken ?c ?x ?y] => destruct (taken c x y) end; intuition congruence).
    all: cbn [taken]; rewrite ?(i32_s32 _ (RW _ (proj1 Hl))), ?(i32_s32 _ (RW _ (proj1 (proj2 Hl)))); try reflexivity.
    all: rewrite Z.geb_leb; reflexivity.
  - (* LOAD *)
    assert (HB : forall i, 0 <= i -> i + 1 <= ld_size k -> is_byte (ld8 (m_mem m) (ea m rs1 off + i))).
    { intros j Hj Hj2. eapply (read_byte_ok chk); eauto. unfold stays_in in Hin.
      apply (in_region_sub _ _ _ j 1 Hin); lia. }
    assert (HEA : forall r, reg r -> wadd (get (m_rf m) r) (to_word off) = ea m r off).
    { intros. apply wadd_tw. }
    cbn [stays_in] in Hin.
    destruct k; cbn [t_of T.exec isa_step do_load ld_size] in *; rewrite RG, HEA by tauto;
      change (to_word (get (m_rf m) rs1 + off)) with (ea m rs1 off).
    + destruct (read_byte_ok chk _ _ _ Hmem Hsm Hin) as (E & R). rewrite E. unfold is_byte in R.
      rewrite sign_extend_spec by lia. apply set_rd_out; auto; [tauto|apply to_word_word|seqP].
    + rewrite half_ok_spec.
      pose proof (ld16_range (m_mem m) (ea m rs1 off)) as R. rewrite <- (Z.add_0_r (ea m rs1 off)) in R at 1.
      specialize (R (HB 0 ltac:(lia) ltac:(lia)) (HB 1 ltac:(lia) ltac:(lia))).
      destruct (Z.eqb_spec (ea m rs1 off mod 2) 0) as [H|H].
      * replace (negb (ea m rs1 off mod 4 =? 3)) with true by (Z.div_mod_to_equations; lia).
        rewrite (read_half_ok chk _ _ _ Hmem Hsm Hin H). rewrite sign_extend_spec by lia.
        apply set_rd_out; auto; [tauto|apply to_word_word|seqP].
      * right. split; [|cbn [refused]; auto].
        unfold T.read_half. destruct (Z.eqb_spec (ea m rs1 off mod 2) 0); [lia|].
        destruct (negb _); reflexivity.
    + destruct (Z.eqb_spec (ea m rs1 off mod 4) 0) as [H|H].
      * rewrite (read_word_ok chk _ _ _ Hmem Hsm Hin H).
        apply set_rd_out; auto; [tauto| |seqP].
        apply ld32_range; auto; try (apply HB; lia).
        rewrite <- (Z.add_0_r (ea m rs1 off)). apply HB; lia.
      * right. split; [reflexivity|cbn [refused]; auto].
    + destruct (read_byte_ok chk _ _ _ Hmem Hsm Hin) as (E & R). rewrite E. unfold is_byte in R.
      apply set_rd_out; auto; [tauto|unfold word; lia|seqP].
    + rewrite half_ok_spec.
      pose proof (ld16_range (m_mem m) (ea m rs1 off)) as R. rewrite <- (Z.add_0_r (ea m rs1 off)) in R at 1.
      specialize (R (HB 0 ltac:(lia) ltac:(lia)) (HB 1 ltac:(lia) ltac:(lia))).
      destruct (Z.eqb_spec (ea m rs1 off mod 2) 0) as [H|H].
      * replace (negb (ea m rs1 off mod 4 =? 3)) with true by (Z.div_mod_to_equations; lia).
        rewrite (read_half_ok chk _ _ _ Hmem Hsm Hin H).
        apply set_rd_out; auto; [tauto|unfold word; lia|seqP].
      * right. split; [|cbn [refused]; auto].
        unfold T.read_half. destruct (Z.eqb_spec (ea m rs1 off mod 2) 0); [lia|].
        destruct (negb _); reflexivity.
  - (* STORE *)
    assert (HEA : forall r, reg r -> wadd (get (m_rf m) r) (to_word off) = ea m r off).
    { intros. apply wadd_tw. }
    cbn [stays_in] in Hin.
    destruct k; cbn [t_of T.exec isa_step do_store st_size] in *; rewrite !RG, HEA by tauto;
      change (to_word (get (m_rf m) rs1 + off)) with (ea m rs1 off).
    + rewrite ext8. destruct (write_byte_ok chk _ _ _ _ (get (m_rf m) rs2) Hmem Hsm Hin eq_refl) as (m' & E & A & B & C).
      rewrite E. apply stored_out; auto. seqP.
    + rewrite half_ok_spec, ext16. destruct (Z.eqb_spec (ea m rs1 off mod 4) 3) as [H|H]; cbn [negb].
      * right. split; [reflexivity|cbn [refused]; auto].
      * destruct (write_half_ok chk _ _ _ (get (m_rf m) rs2) Hmem Hsm Hin) as (m' & E & A & B & C).
        rewrite E. apply stored_out; auto. seqP.
    + destruct (Z.eqb_spec (ea m rs1 off mod 4) 0) as [H|H].
      * destruct (write_word_ok chk _ _ _ (get (m_rf m) rs2) Hmem Hsm Hin) as (m' & E & A & B & C).
        rewrite E. apply stored_out; auto. seqP.
      * right. split; [reflexivity|cbn [refused]; auto].
  - (* OPI *) destruct Hl as (L1 & L2 & L3).
    destruct o; cbn [t_of T.exec isa_step alu_iop]; rewrite RG by tauto;
    rewrite ?wadd_tw, ?i32_to_word, ?(i32_s32 _ (RW _ L2)) by lia;
    apply set_rd_out; auto; try seqP; try apply to_word_word; try apply word_bool.
    all: first [apply word_lxor|apply word_lor|apply word_land]; auto using to_word_word.
  - (* SHI *) destruct Hl as (L1 & L2 & L3).
    destruct o; cbn [t_of T.exec isa_step alu_shop]; rewrite RG by tauto;
    rewrite ?shl32_mul, ?shr32_div, ?(sar32_div _ _ (RW _ L2)) by lia;
    apply set_rd_out; auto; try seqP; try apply to_word_word.
    apply word_div; auto; lia.
  - (* OPR *) destruct Hl as (L1 & L2 & L3).
    pose proof (Z.mod_pos_bound (get (m_rf m) rs2) 32 ltac:(lia)) as SH.
    destruct o; cbn [t_of T.exec isa_step alu_rop]; rewrite !RG by tauto;
    rewrite ?ext5, ?(i32_s32 _ (RW _ L2)), ?(i32_s32 _ (RW _ L3));
    rewrite ?shl32_mul, ?shr32_div, ?(sar32_div _ _ (RW _ L2)) by lia;
    apply set_rd_out; auto; try seqP; try apply to_word_word; try apply word_bool.
    all: first [apply word_lxor|apply word_lor|apply word_land|apply word_div]; auto using to_word_word; lia.
  - (* OPM *) destruct Hl as (L1 & L2 & L3). pose proof (RW _ L2) as W1. pose proof (RW _ L3) as W2.
    set (x := get (m_rf m) rs1) in *. set (y := get (m_rf m) rs2) in *.
    destruct o; cbn [t_of T.exec isa_step alu_mop]; rewrite !RG by tauto; fold x y.
    + apply set_rd_out; auto; [apply to_word_word|seqP].
    + rewrite u64_i64, hi32, !i32_s32 by auto. apply set_rd_out; auto; [apply to_word_word|seqP].
    + rewrite u64_i64, hi32, !i32_s32 by auto. apply set_rd_out; auto; [apply to_word_word|seqP].
    + rewrite hi32. replace (to_word (x * y / 2 ^ 32)) with (x * y / 2 ^ 32).
      2:{ symmetry. apply to_word_small. unfold word in *. split; [apply Z.div_pos; nia|].
          apply Z.div_lt_upper_bound; nia. }
      apply set_rd_out; auto; [|seqP]. unfold word in *. split; [apply Z.div_pos; nia|].
      apply Z.div_lt_upper_bound; nia.
    + unfold T.i32_div. rewrite !i32_s32 by auto.
      destruct (Z.eqb_spec (s32 y) 0) as [Hy|Hy].
      { right. split; [reflexivity|]. right. right. left. fold y. destruct (s32_cases y W2); unfold word in W2; lia. }
      destruct (Z.eqb_spec (s32 x) (-2147483648)) as [Hx|Hx]; destruct (Z.eqb_spec (s32 y) (-1)) as [Hy2|Hy2]; cbn [orb andb].
      { right. split; [reflexivity|]. right. right. right. fold x y.
        destruct (s32_cases x W1), (s32_cases y W2); unfold word in W1, W2; lia. }
      all: destruct (Z.eqb_spec y 0) as [Hy0|Hy0]; [exfalso; apply Hy; rewrite Hy0; reflexivity|];
        apply set_rd_out; auto; [apply to_word_word|];
        unfold pc_overflow, refused, div_trap, sequential; fold x y; split; [|tauto];
        intros [[]|[T|[T|[T1 T2]]]]; [tauto|congruence|exfalso];
        first [apply Hy2; rewrite T2; reflexivity|apply Hx; rewrite T1; reflexivity].
    + unfold T.u32_div. destruct (Z.eqb_spec y 0) as [Hy|Hy].
      { right. split; [reflexivity|]. right. right. exact Hy. }
      rewrite Z.quot_div_nonneg by (unfold word in *; lia).
      apply set_rd_out; auto.
      { unfold word in *. split; [apply Z.div_pos; lia|]. apply Z.le_lt_trans with x; [|lia]. apply Z.div_le_upper_bound; nia. }
      unfold pc_overflow, refused, div_trap, sequential; fold y; tauto.
    + unfold T.i32_rem. rewrite !i32_s32 by auto.
      destruct (Z.eqb_spec (s32 y) 0) as [Hy|Hy].
      { right. split; [reflexivity|]. right. right. left. fold y. destruct (s32_cases y W2); unfold word in W2; lia. }
      destruct (Z.eqb_spec (s32 x) (-2147483648)) as [Hx|Hx]; destruct (Z.eqb_spec (s32 y) (-1)) as [Hy2|Hy2]; cbn [orb andb].
      { right. split; [reflexivity|]. right. right. right. fold x y.
        destruct (s32_cases x W1), (s32_cases y W2); unfold word in W1, W2; lia. }
      all: destruct (Z.eqb_spec y 0) as [Hy0|Hy0]; [exfalso; apply Hy; rewrite Hy0; reflexivity|];
        apply set_rd_out; auto; [apply to_word_word|];
        unfold pc_overflow, refused, div_trap, sequential; fold x y; split; [|tauto];
        intros [[]|[T|[T|[T1 T2]]]]; [tauto|congruence|exfalso];
        first [apply Hy2; rewrite T2; reflexivity|apply Hx; rewrite T1; reflexivity].
    + unfold T.u32_rem. destruct (Z.eqb_spec y 0) as [Hy|Hy].
      { right. split; [reflexivity|]. right. right. exact Hy. }
      rewrite Z.rem_mod_nonneg by (unfold word in *; lia).
      apply set_rd_out; auto.
      { unfold word in *. pose proof (Z.mod_pos_bound x y ltac:(lia)). lia. }
      unfold pc_overflow, refused, div_trap, sequential; fold y; tauto.
Qed.
