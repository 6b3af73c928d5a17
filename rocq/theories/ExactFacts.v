(** The encrypted VM follows the machine of [ExactSpec] (proofs). *)
Require Import ZArith List Bool Lia.
Require Import Verif.Word Verif.Isa Verif.Bits Verif.CodecBits Verif.Codec Verif.DecodeSpec Verif.DecodeFacts Verif.DecodeAccept Verif.TestDecode
  Verif.EvalSpec Verif.EvalPlain Verif.EvalFacts Verif.ListFacts Verif.TestRunFacts Verif.TestStep Verif.IsaSplit
  Verif.DebugVM Verif.DebugFacts Verif.DebugStep Verif.Bdd Verif.CircFacts Verif.Glwe Verif.Par Verif.EncMem
  Verif.MemSpec Verif.MemFacts Verif.MemOps Verif.Prepare Verif.EncVM Verif.EncSpec Verif.EncFacts Verif.EncCycle Verif.EncTrack Verif.EncLoad Verif.EncRun
  Verif.ExactSpec.
Import ListNotations.
Ltac Zify.zify_post_hook ::= idtac.
Open Scope Z_scope.

(** ** decoding *)
Definition row_of (i : instr) : Z * Z * Z * Z * Z * Z * Z :=
  (imm_of i, r_rs1 i, r_rs2 i, r_rd i, rd_id (o_rd i), ram_id (o_ram i), pc_id (o_pc i)).
Lemma decoded_row dbg w i : decoded dbg w (ops_of i) (regs_of i) (imm_of i) -> components dbg w = Some (row_of i).
Proof.
  intros (E1 & E2 & E3). unfold components, row_of, r_rs1, r_rs2, r_rd, o_rd, o_ram, o_pc. rewrite E3, E2, E1.
  destruct (regs_of i) as [[? ?] ?]. destruct (ops_of i) as [[? ?] ?]. reflexivity.
Qed.
Lemma act_row dbg w row : word w -> components dbg w = Some row ->
  match action_of w with
  | Some (Exec i) => legal i /\ row = row_of i
  | Some Skip => row = (0, 0, 0, 0, rd_id RNONE, ram_id MNONE, pc_id PNONE)
  | None => False
  end.
Proof.
  intros W C.
  assert (A : accepted dbg w).
  { unfold components in C. destruct (get_imm dbg w) as [im|] eqn:E1; [|discriminate].
    destruct (get_registers dbg w) as [r|] eqn:E2; [|discriminate].
    destruct (get_opid dbg w) as [o|] eqn:E3; [|destruct r as [[? ?] ?]; discriminate].
    exists o, r, im. repeat split; auto. }
  unfold action_of. destruct (isa_of w) as [i|] eqn:E.
  - destruct (isa_of_sound w i W E) as [L <-]. split; [exact L|].
    destruct (decode_legal dbg i L) as [_ D]. rewrite (decoded_row _ _ _ D) in C. congruence.
  - apply accepted_iff in A; [|exact W]. destruct A as [(i & L & <-)|L].
    + rewrite isa_of_complete in E by exact L. discriminate.
    + destruct L as [(J0 & J1 & J2)|[(J0 & J1)|J0]]; rewrite J0; cbn -[fld imm_I imm_sh]; rngs w.
      * rewrite J1. cbn -[fld imm_sh]. unfold imm_sh. split; [unfold reg; lia|].
        assert (D : decoded dbg w (ops_of (SHI SLLI (fld 11 7 w) (fld 19 15 w) (fld 24 20 w))) (0, fld 19 15 w, fld 11 7 w) (fld 24 20 w)).
        { dec_unfold W. rewrite J0, J1. cbn -[fld]. auto. }
        rewrite (decoded_row _ _ (SHI SLLI (fld 11 7 w) (fld 19 15 w) (fld 24 20 w)) D) in C. congruence.
      * split; [unfold reg; lia|].
        assert (D : decoded dbg w (ops_of (JALR (fld 11 7 w) (fld 19 15 w) (imm_I w))) (0, fld 19 15 w, fld 11 7 w) (to_word (imm_I w))).
        { dec_unfold W. rewrite J0. rewrite i_get_spec by exact W. cbn -[fld imm_I]. rewrite andb_false_r. auto. }
        rewrite (decoded_row _ _ (JALR (fld 11 7 w) (fld 19 15 w) (imm_I w)) D) in C. congruence.
      * assert (M : w mod 128 = 115).
        { revert J0. unfold fld. rewrite Z.pow_0_r, Z.div_1_r. auto. }
        rewrite (system_row dbg w W M) in C. injection C as <-. reflexivity.
Qed.

(** ** the tables *)
Definition at_row (r : roms) (k : nat) : Z * Z * Z * Z * Z * Z * Z :=
  (nth k (imm_rom r) 0, nth k (rs1_rom r) 0, nth k (rs2_rom r) 0, nth k (rd_rom r) 0, nth k (rdu_rom r) 0,
   nth k (mu_rom r) 0, nth k (pcu_rom r) 0).
Lemma fill_at dbg ws : forall r, fill dbg ws = Some r -> forall k w, nth_error ws k = Some w ->
  components dbg w = Some (at_row r k).
Proof.
  induction ws as [|w ws IH]; intros r H k w' N; [destruct k; discriminate|]. cbn [fill] in H.
  destruct (components dbg w) as [[[[[[[im rs1] rs2] rd] a] b] c]|] eqn:C; [|discriminate].
  destruct (fill dbg ws) as [r'|]; [|discriminate]. injection H as <-.
  destruct k; cbn [nth_error] in N.
  - injection N as <-. exact C.
  - rewrite (IH _ eq_refl k w' N). reflexivity.
Qed.
Lemma at_pad n r k m : rom_len m r -> (m <= n)%nat -> (k < m)%nat -> at_row (pad_roms n r) k = at_row r k.
Proof.
  intros (L1 & L2 & L3 & L4 & L5 & L6 & L7) Hn Hk. unfold at_row, pad_roms, table.
  cbn [imm_rom rs1_rom rs2_rom rd_rom rdu_rom mu_rom pcu_rom].
  rewrite !app_nth1 by lia. reflexivity.
Qed.

(** ** results *)
Lemma rd_sel_id o imm x y pc ram : In o RD_RV32I -> rd_sel (rd_id o mod 32) imm x y pc ram =
  match rd_enc o imm x y pc ram with Some v => v | None => 0 end.
Proof.
  intro H. unfold rd_sel. rewrite Z.mod_small by (apply rd_id_small; exact H).
  rewrite by_id_in; [reflexivity|apply nodup_rd|exact H].
Qed.
Lemma ram_sel_id o y ram off : ram_sel (ram_id o mod 4) y ram off = ram_eval o y ram off.
Proof.
  unfold ram_sel. rewrite Z.mod_small by apply ram_id_small.
  rewrite by_id_in; [reflexivity|apply nodup_ram|apply in_ram].
Qed.
Lemma pc_sel_id o imm x y pc : pc_sel (pc_id o mod 16) imm x y pc = pc_spec o (to_word (signed 20 imm)) x y pc.
Proof.
  unfold pc_sel. rewrite Z.mod_small by apply pc_id_small.
  rewrite by_id_in; [reflexivity|apply nodup_pc|apply in_pc].
Qed.

Lemma splice_word k a old v n : word old -> word v -> (n = 1 \/ n = 2) -> 0 <= a -> a + n <= 4 ->
  (forall j, 0 <= j < 4 -> byte j k = if (a <=? j) && (j <? a + n) then byte (j - a) v else byte j old) -> word k ->
  k = word_of (fun j => if (a <=? j) && (j <? a + n) then byte (j - a) v else byte j old).
Proof.
  intros Wo Wv Hn Ha Han H Wk. rewrite <- (bytes_word k Wk). unfold word_of. cbv beta.
  rewrite !H by lia. ring.
Qed.
Lemma ram_stored k a old v : word old -> word v -> ram_eval (stk_id k) v old (a mod 4) = stored k a old v.
Proof.
  intros Wo Wv. pose proof (Z.mod_pos_bound a 4 ltac:(lia)) as B. unfold stored. set (o := a mod 4) in *.
  destruct k; cbn [stk_id]; cbv zeta.
  - apply splice_word; auto; try lia.
    + intros j Hj. rewrite ram_eval_bytes by (auto; exact I). reflexivity.
    + now apply word_ram_eval.
  - destruct (Z.eqb_spec (o mod 2) 0) as [E|E].
    + assert (O4 : o = 0 \/ o = 2).
      { pose proof (Z.div_mod o 2 ltac:(lia)). lia. }
      apply splice_word; auto; try lia.
      * intros j Hj. rewrite ram_eval_bytes by auto. reflexivity.
      * now apply word_ram_eval.
    + apply sh_odd_zero; auto. pose proof (Z.mod_pos_bound o 2 ltac:(lia)). lia.
  - reflexivity.
Qed.

(** ** one cycle *)
(** machine state [q] describes [s] *)
Definition same (s : xvm) (q : qm) : Prop :=
  x_cycle s = q_cycle q mod 2 ^ 32 /\ x_last s = q_last q /\ x_pc s = q_pc q /\
  length (x_regs s) = 32%nat /\ (forall r, reg r -> nth (Z.to_nat r) (x_regs s) 0 = get (q_rf q) r) /\
  (forall k, 0 <= k < Z.of_nat (length (x_ram s)) -> nth (Z.to_nat k) (x_ram s) 0 = q_ram q k).

Lemma put_regs regs rf rd v r : length regs = 32%nat -> (forall r, reg r -> nth (Z.to_nat r) regs 0 = get rf r) -> reg rd -> reg r ->
  nth (Z.to_nat r) (put_word (put_word regs (Z.to_nat rd) v) 0 0) 0 = get (put rf rd v) r.
Proof.
  intros L H Hd Hr. unfold reg in *.
  rewrite put_word_nth by (rewrite put_word_length; lia).
  rewrite put_word_nth by lia. unfold get at 1, put.
  destruct (Z.eqb_spec r 0) as [->|N0].
  - reflexivity.
  - destruct (Nat.eqb_spec (Z.to_nat r) 0); [lia|].
    destruct (Z.eqb_spec r rd) as [->|N1]; [now rewrite Nat.eqb_refl|].
    destruct (Nat.eqb_spec (Z.to_nat r) (Z.to_nat rd)); [lia|]. now apply H.
Qed.
Lemma put0 rf v r : get (put rf 0 v) r = get rf r.
Proof. unfold put, get. destruct (r =? 0); reflexivity. Qed.
Lemma slot_range mb a : 0 <= slot_of mb a < 2 ^ Z.of_nat mb.
Proof. unfold slot_of. apply Z.mod_pos_bound. apply Z.pow_pos_nonneg; lia. Qed.
Lemma f_slot_of rb mb s off : f_imm (xfields rb mb s) = to_word off ->
  f_slot (xfields rb mb s) = Z.to_nat (slot_of mb (f_x (xfields rb mb s) + off)) /\
  f_addr (xfields rb mb s) mod 4 = (f_x (xfields rb mb s) + off) mod 4.
Proof.
  intro E. set (f := xfields rb mb s) in *.
  assert (A : f_addr f = to_word (f_x f + off - 2 ^ 18)).
  { change (f_addr f) with (to_word (f_imm f + f_x f - 2 ^ 18)). rewrite E. unfold to_word.
    replace (off mod 2 ^ 32 + f_x f - 2 ^ 18) with (off mod 2 ^ 32 + (f_x f - 2 ^ 18)) by ring.
    rewrite Zplus_mod_idemp_l. f_equal. ring. }
  split.
  - change (f_slot f) with (Z.to_nat (f_addr f / 4 mod 2 ^ Z.of_nat mb)). rewrite A. reflexivity.
  - rewrite A. unfold to_word. change (2 ^ 32) with (4 * 2 ^ 30). rewrite Z.rem_mul_r by lia.
    rewrite Z.mul_comm, Z.mod_add by lia. rewrite Z.mod_mod by lia.
    replace (f_x f + off - 2 ^ 18) with (f_x f + off + (- 2 ^ 16) * 4) by ring. apply Z.mod_add. lia.
Qed.

(** the three parts of a cycle *)
Definition step_pc_of (rb mb : nat) (s : xvm) : Z := x_pc (xcycle rb mb s).
Lemma exec_ok log rb mb v s q i : shows log rb mb v s -> same s q -> legal i ->
  let f := xfields rb mb s in
  (f_imm f, f_rs1 f, f_rs2 f, f_rd f, f_rdu f, f_mu f, f_pcu f) = row_of i ->
  let '(pc', rf', ram') := exec mb i (f_pc f) (q_rf q) (q_ram q) in
  x_pc (xcycle rb mb s) = pc' /\
  (forall r, reg r -> nth (Z.to_nat r) (x_regs (xcycle rb mb s)) 0 = get rf' r) /\
  (forall k, 0 <= k < Z.of_nat (length (x_ram s)) -> nth (Z.to_nat k) (x_ram (xcycle rb mb s)) 0 = ram' k).
Proof.
  intros S (Q1 & Q2 & Q3 & Q4 & Q5 & Q6) L f R.
  assert (R1 : f_imm f = imm_of i) by (unfold row_of in R; congruence).
  assert (R2 : f_rs1 f = r_rs1 i) by (unfold row_of in R; congruence).
  assert (R3 : f_rs2 f = r_rs2 i) by (unfold row_of in R; congruence).
  assert (R4 : f_rd f = r_rd i) by (unfold row_of in R; congruence).
  assert (R5 : f_rdu f = rd_id (o_rd i)) by (unfold row_of in R; congruence).
  assert (R6 : f_mu f = ram_id (o_ram i)) by (unfold row_of in R; congruence).
  assert (R7 : f_pcu f = pc_id (o_pc i)) by (unfold row_of in R; congruence).
  clear R. destruct (legal_regs i L) as (G1 & G2 & G3).
  assert (X : f_x f = get (q_rf q) (r_rs1 i)).
  { change (f_x f) with (nth (Z.to_nat (f_rs1 f mod 32)) (x_regs s) 0). rewrite R2, Z.mod_small by exact G1. now apply Q5. }
  assert (Y : f_y f = get (q_rf q) (r_rs2 i)).
  { change (f_y f) with (nth (Z.to_nat (f_rs2 f mod 32)) (x_regs s) 0). rewrite R3, Z.mod_small by exact G2. now apply Q5. }
  assert (WR : forall k, word (nth k (x_regs s) 0)).
  { intro k. apply is_word_word. assert (HR : holds log (v_regs v) (x_regs s)) by apply S. eapply holds_word. exact HR. }
  assert (WM : forall k, word (nth k (x_ram s) 0)).
  { intro k. apply is_word_word. assert (HR : holds log (v_ram v) (x_ram s)) by apply S. eapply holds_word. exact HR. }
  assert (Wx : word (f_x f)) by apply WR. assert (Wy : word (f_y f)) by apply WR.
  assert (Wl : word (f_loaded f)) by apply WM.
  assert (Wp : word (f_pc f)).
  { destruct (pc_prepared log rb mb v s S) as (? & _ & P & _). apply is_word_word. eapply prepared_word. exact P. }
  assert (LM : length (x_ram s) = (2 ^ mb)%nat) by apply S.
  pose proof (slot_lt rb mb s) as SL. fold f in SL.
  assert (LZ : Z.of_nat (length (x_ram s)) = 2 ^ Z.of_nat mb) by (rewrite LM; apply pow_nat).
  (* the next state in terms of the operations *)
  assert (EP : x_pc (xcycle rb mb s) = pc_spec (o_pc i) (to_word (signed 20 (imm_of i))) (f_x f) (f_y f) (f_pc f)).
  { unfold xcycle. cbn [x_pc]. fold f. rewrite R7, R1. apply pc_sel_id. }
  assert (ER : forall w, f_result f = w -> forall r, reg r -> nth (Z.to_nat r) (x_regs (xcycle rb mb s)) 0 = get (put (q_rf q) (r_rd i) w) r).
  { intros w Hw r Hr. unfold xcycle. cbn [x_regs]. fold f. rewrite Hw, R4, Z.mod_small by exact G3. now apply put_regs. }
  assert (EM : forall k, 0 <= k < Z.of_nat (length (x_ram s)) -> nth (Z.to_nat k) (x_ram (xcycle rb mb s)) 0 =
     if (Z.to_nat k =? f_slot f)%nat then ram_eval (o_ram i) (f_y f) (f_loaded f) (f_addr f mod 4) else q_ram q k).
  { intros k Hk. unfold xcycle. cbn [x_ram]. fold f. rewrite put_word_nth by lia.
    destruct (Nat.eqb_spec (Z.to_nat k) (f_slot f)); [|now apply Q6]. unfold f_stored. rewrite R6. apply ram_sel_id. }
  assert (EN : o_ram i = MNONE -> forall k, 0 <= k < Z.of_nat (length (x_ram s)) -> nth (Z.to_nat k) (x_ram (xcycle rb mb s)) 0 = q_ram q k).
  { intros N k Hk. rewrite EM by exact Hk. destruct (Nat.eqb_spec (Z.to_nat k) (f_slot f)) as [E|E]; auto.
    rewrite N. cbn [ram_eval]. change (f_loaded f) with (nth (f_slot f) (x_ram s) 0). rewrite <- E. now apply Q6. }
  (* instructions that follow the ISA *)
  set (m := {| m_pc := f_pc f; m_rf := q_rf q; m_mem := fun _ => 0 |}).
  assert (ISA : o_ram i = MNONE -> opm i = false -> sees i m (f_loaded f) -> o_rd i <> RLB ->
     pc_spec (o_pc i) (to_word (signed 20 (imm_of i))) (f_x f) (f_y f) (f_pc f) =
       pc_spec (o_pc i) (imm_of i) (f_x f) (f_y f) (f_pc f) ->
     x_pc (xcycle rb mb s) = m_pc (isa_step i m) /\
     (forall r, reg r -> nth (Z.to_nat r) (x_regs (xcycle rb mb s)) 0 = get (m_rf (isa_step i m)) r) /\
     (forall k, 0 <= k < Z.of_nat (length (x_ram s)) -> nth (Z.to_nat k) (x_ram (xcycle rb mb s)) 0 = q_ram q k)).
  { intros N O SE NL PE. split; [|split].
    - rewrite EP, PE, X, Y. apply (isa_pc i m L).
    - destruct (isa_rd i m (f_loaded f) L O Wl SE) as (w & V & HR). intros r Hr. rewrite HR. apply ER; auto.
      unfold f_result. rewrite R5, R1, rd_sel_id by (now apply rd_in_list). unfold rd_enc.
      replace (match o_rd i with RLB => RLBU | _ => o_rd i end) with (o_rd i) by (destruct (o_rd i); congruence).
      change (f_pc f) with (m_pc m). rewrite X, Y. change (q_rf q) with (m_rf m). now rewrite V.
    - now apply EN. }
  assert (P20 : forall off, - 2 ^ 19 <= off < 2 ^ 19 -> to_word (signed 20 (to_word off)) = to_word off).
  { intros off H. rewrite signed20_word, signed20_id by exact H. reflexivity. }
  destruct i.
  all: cbn [exec]; cbv zeta.
  - apply ISA; auto; try discriminate; reflexivity.
  - apply ISA; auto; try discriminate; reflexivity.
  - (* JAL *) split; [|split].
    + rewrite EP. cbn [o_pc ops_of snd pc_spec imm_of]. rewrite signed20_word.
      pose proof (signed_range 20 off ltac:(lia)). rewrite s32_to_word by lia. reflexivity.
    + apply (ER (to_word (f_pc f + 4))). unfold f_result. rewrite R5, rd_sel_id by (now apply rd_in_list). reflexivity.
    + now apply EN.
  - apply ISA; try reflexivity; try exact I; try discriminate. cbn [imm_of]. cbn in L. rewrite P20 by lia. reflexivity.
  - apply ISA; try reflexivity; try exact I; try discriminate. cbn [imm_of]. cbn in L. rewrite P20 by lia. reflexivity.
  - (* LOAD *) destruct (f_slot_of rb mb s off R1) as [FS _]. fold f in FS.
    split; [|split].
    + rewrite EP. reflexivity.
    + apply (ER (loaded k (q_ram q (slot_of mb (get (q_rf q) rs1 + off))))).
      assert (EL : f_loaded f = q_ram q (slot_of mb (get (q_rf q) rs1 + off))).
      { change (f_loaded f) with (nth (f_slot f) (x_ram s) 0). rewrite FS, X.
        apply Q6. rewrite LZ. apply slot_range. }
      rewrite <- EL. unfold f_result. rewrite R5, rd_sel_id by (now apply rd_in_list).
      destruct k; cbn [o_rd ops_of fst snd ldk_id rd_enc rd_spec loaded]; try reflexivity.
      * apply byte_0.
      * unfold signed, low. rewrite Z.mod_mod by lia. reflexivity.
      * apply byte_0.
    + now apply EN.
  - (* STORE *) destruct (f_slot_of rb mb s off R1) as [FS FA]. fold f in FS, FA.
    split; [|split].
    + rewrite EP. reflexivity.
    + intros r Hr. rewrite (ER _ eq_refl r Hr). apply put0.
    + intros j Hj. rewrite EM by exact Hj. rewrite FS, FA, X.
      change (r_rs1 (STORE k rs1 rs2 off)) with rs1.
      pose proof (slot_range mb (get (q_rf q) rs1 + off)) as SR.
      destruct (Nat.eqb_spec (Z.to_nat j) (Z.to_nat (slot_of mb (get (q_rf q) rs1 + off)))) as [E|E];
        destruct (Z.eqb_spec j (slot_of mb (get (q_rf q) rs1 + off))) as [E'|E']; try lia; auto.
      change (o_ram (STORE k rs1 rs2 off)) with (stk_id k).
      rewrite ram_stored by auto. f_equal; [|exact Y].
      change (f_loaded f) with (nth (f_slot f) (x_ram s) 0). rewrite FS, X. change (r_rs1 (STORE k rs1 rs2 off)) with rs1. rewrite <- E. now apply Q6.
  - apply ISA; try reflexivity; try exact I; try discriminate. destruct o; discriminate.
  - apply ISA; try reflexivity; try exact I; try discriminate. destruct o; discriminate.
  - apply ISA; try reflexivity; try exact I; try discriminate. destruct o; discriminate.
  - (* OPM *) split; [|split].
    + rewrite EP. reflexivity.
    + apply (ER (m_result o (get (q_rf q) rs1) (f_pc f))). unfold f_result. rewrite R5, R1. cbn [imm_of o_rd ops_of fst snd].
      rewrite m_sel by auto. rewrite X. unfold m_result, bool_word, s32. destruct o; reflexivity.
    + now apply EN.
Qed.

Lemma pow_rb2 rb : 2 ^ (Z.of_nat rb + 2) = 4 * 2 ^ Z.of_nat rb.
Proof. rewrite Z.pow_add_r by lia. change (2 ^ 2) with 4. ring. Qed.

Section RUN.
Context (log rb mb : nat) (rom_words : nat) (dbg : bool) (ws : list Z) (r : roms).
Hypothesis (FW : Forall word ws) (HF : fill dbg ws = Some r) (FL : (length ws <= rom_words)%nat).

Lemma q_step_ok v s q : shows log rb mb v s -> x_rom s = pad_roms rom_words r -> same s q ->
  same (xcycle rb mb s) (q_step rb mb ws q).
Proof.
  intros S XR SM. pose proof SM as (Q1 & Q2 & Q3 & Q4 & Q5 & Q6). destruct (fill_rows _ _ FW _ HF) as [_ RL].
  assert (LM : length (x_ram s) = (2 ^ mb)%nat) by apply S.
  assert (LM' : length (x_ram (xcycle rb mb s)) = length (x_ram s)).
  { unfold xcycle. cbn [x_ram]. apply put_word_length. rewrite LM. apply slot_lt. }
  set (f := xfields rb mb s).
  assert (EP : f_pc f = if q_cycle q mod 2 ^ 32 =? 0 then q_last q else q_pc q mod (4 * 2 ^ Z.of_nat rb)).
  { unfold f, xfields. cbn [f_pc]. rewrite Q1, Q2, Q3, pow_rb2. reflexivity. }
  assert (Wp : word (f_pc f)).
  { destruct (pc_prepared log rb mb v s S) as (? & _ & P & _). apply is_word_word. eapply prepared_word. exact P. }
  assert (CC : to_word (x_cycle s + 1) = (q_cycle q + 1) mod 2 ^ 32).
  { unfold to_word. rewrite Q1. apply Zplus_mod_idemp_l. }
  assert (AR : (f_imm f, f_rs1 f, f_rs2 f, f_rd f, f_rdu f, f_mu f, f_pcu f) = at_row (x_rom s) (Z.to_nat (f_pc f / 4))) by reflexivity.
  rewrite XR in AR.
  unfold q_step. cbv zeta. rewrite <- EP.
  assert (NOP : forall w, f_rd f = 0 -> f_rdu f = rd_id RNONE -> f_mu f = ram_id MNONE -> x_pc (xcycle rb mb s) = w ->
     same (xcycle rb mb s) {| q_cycle := q_cycle q + 1; q_last := f_pc f; q_pc := w; q_rf := q_rf q; q_ram := q_ram q |}).
  { intros w E4 E5 E6 EW. unfold same. cbn [q_cycle q_last q_pc q_rf q_ram]. rewrite LM'.
    split; [exact CC|]. split; [reflexivity|]. split; [exact EW|]. split; [now apply xcycle_regs_length|]. split.
    - intros k Hk. unfold xcycle. cbn [x_regs]. fold f. rewrite E4. change (0 mod 32) with 0.
      rewrite (put_regs (x_regs s) (q_rf q) 0 (f_result f) k Q4 Q5) by (unfold reg in *; lia). apply put0.
    - intros k Hk. unfold xcycle. cbn [x_ram]. fold f. pose proof (slot_lt rb mb s) as SL. fold f in SL.
      rewrite put_word_nth by lia. destruct (Nat.eqb_spec (Z.to_nat k) (f_slot f)) as [E|E]; [|now apply Q6].
      unfold f_stored. rewrite E6, ram_sel_id. cbn [ram_eval]. change (f_loaded f) with (nth (f_slot f) (x_ram s) 0).
      rewrite <- E. now apply Q6. }
  destruct (nth_error ws (Z.to_nat (f_pc f / 4))) as [w|] eqn:N.
  - assert (Hk : (Z.to_nat (f_pc f / 4) < length ws)%nat) by (apply nth_error_Some; congruence).
    rewrite (at_pad _ _ _ _ RL FL Hk) in AR. pose proof (fill_at _ _ _ HF _ _ N) as C. rewrite <- AR in C.
    pose proof (act_row _ _ _ (nth_error_Forall _ _ _ _ _ FW N) C) as A.
    destruct (action_of w) as [[i|]|]; [|..|destruct A].
    + destruct A as [L R]. pose proof (exec_ok log rb mb v s q i S SM L R) as X. fold f in X.
      destruct (exec mb i (f_pc f) (q_rf q) (q_ram q)) as [[pc' rf'] ram']. destruct X as (X1 & X2 & X3).
      unfold same. cbn [q_cycle q_last q_pc q_rf q_ram]. rewrite LM'.
      split; [exact CC|]. split; [reflexivity|]. split; [exact X1|]. split; [now apply xcycle_regs_length|]. auto.
    + apply NOP; try congruence.
      assert (A7 : f_pcu f = pc_id PNONE) by congruence.
      unfold xcycle. cbn [x_pc]. fold f. rewrite A7. apply (pc_sel_id PNONE).
  - assert (Hk : (length ws <= Z.to_nat (f_pc f / 4))%nat) by (apply nth_error_None; exact N).
    destruct RL as (L1 & L2 & L3 & L4 & L5 & L6 & L7).
    unfold at_row, pad_roms in AR. cbn [imm_rom rs1_rom rs2_rom rd_rom rdu_rom mu_rom pcu_rom] in AR.
    rewrite !rom_rest in AR by lia. 
    assert (A1 : f_imm f = 0) by congruence. assert (A2 : f_rs1 f = 0) by congruence.
    assert (A3 : f_rs2 f = 0) by congruence. assert (A7 : f_pcu f = 0) by congruence.
    apply NOP; try (change (rd_id RNONE) with 0); try (change (ram_id MNONE) with 0); try congruence.
    assert (X : f_x f = 0).
    { change (f_x f) with (nth (Z.to_nat (f_rs1 f mod 32)) (x_regs s) 0). rewrite A2. apply (Q5 0). unfold reg; lia. }
    assert (Y : f_y f = 0).
    { change (f_y f) with (nth (Z.to_nat (f_rs2 f mod 32)) (x_regs s) 0). rewrite A3. apply (Q5 0). unfold reg; lia. }
    unfold xcycle. cbn [x_pc]. fold f. rewrite A7, A1, X, Y.
    change (pc_sel (0 mod 16) 0 0 0 (f_pc f)) with (to_word (f_pc f + 0)). rewrite Z.add_0_r. now apply to_word_small.
Qed.
Lemma q_run_ok sk on chk es : key_ok log sk on -> Forall env_ok es -> forall v s q v',
  shows log rb mb v s -> x_rom s = pad_roms rom_words r -> same s q -> ecycles (Ideal log) sk chk es v = Some v' ->
  same (xcycles rb mb (length es) s) (q_run rb mb ws (length es) q).
Proof.
  intros K. induction 1 as [|e es He _ IH]; intros v s q v' S XR SM E; [exact SM|].
  cbn [ecycles] in E. destruct (ecycle (Ideal log) sk e chk v) as [v1|] eqn:E1; [|discriminate].
  cbn [length xcycles q_run]. apply (IH v1 _ _ v'); auto.
  - exact (step_shows _ _ _ _ _ _ _ _ _ _ K He S E1).
  - now apply (q_step_ok v).
Qed.
End RUN.

Lemma start_same rom_words ram_words r ram : (length ram <= ram_words)%nat -> same (xstart rom_words ram_words r ram) (q_start ram).
Proof.
  intro L. unfold same, xstart, q_start. cbn [x_cycle x_last x_pc x_regs x_ram q_cycle q_last q_pc q_rf q_ram].
  repeat split.
  - intros k Hk. unfold get. rewrite nth_repeat. now destruct (k =? 0).
  - intros k Hk. unfold table. destruct (le_lt_dec (length ram) (Z.to_nat k)) as [H|H].
    + rewrite app_nth2, nth_repeat, nth_overflow by lia. reflexivity.
    + rewrite app_nth1 by lia. reflexivity.
Qed.
