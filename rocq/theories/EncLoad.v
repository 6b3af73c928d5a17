(** Loading a program into the encrypted VM (proofs). *)
Require Import ZArith List Bool Lia.
Require Import Verif.Word Verif.Isa Verif.Bits Verif.Codec Verif.DecodeAccept Verif.EvalSpec Verif.EvalPlain Verif.EvalFacts Verif.ListFacts
  Verif.DebugVM Verif.DebugFacts Verif.DebugStep Verif.Bdd Verif.BddFacts Verif.CircFacts Verif.Glwe Verif.GlweFacts Verif.Par Verif.ParFacts Verif.EncMem
  Verif.MemSpec Verif.MemFacts Verif.MemOps Verif.MemClient Verif.Prepare Verif.PrepFacts Verif.EncEval Verif.EncVM Verif.EncSpec
  Verif.EncFacts Verif.EncCycle Verif.EncTrack.
Import ListNotations.
Ltac Zify.zify_post_hook ::= idtac.
Open Scope Z_scope.

Lemma guard_some {A} dbg ok w (r : A) x : dbg_guard dbg ok w r = Some x -> x = r.
Proof.
  unfold dbg_guard. destruct dbg; [|congruence]. destruct (get_type w); [|discriminate]. destruct (ok _); congruence.
Qed.
Lemma get_imm_word dbg w im : word w -> get_imm dbg w = Some im -> word im.
Proof.
  intros W H. unfold get_imm in H. destruct (get_type w) as [t|]; [|discriminate].
  destruct t; try (injection H as <-; unfold s_get, b_get, u_get, j_get; words; fail).
  unfold get_funct3 in H. destruct (dbg_guard dbg has_funct3 w _) as [f3|]; [|discriminate].
  destruct (_ && _).
  - unfold get_shamt in H. apply guard_some in H. subst im. unfold getf, SHAMTMASK, SHAMTSHIFT. words.
  - injection H as <-. unfold i_get. words.
Qed.

(** the seven entries of a table row *)
Definition row_ok (im rs1 rs2 rd a b c : Z) : Prop :=
  word im /\ 0 <= rs1 < 32 /\ 0 <= rs2 < 32 /\ 0 <= rd < 32 /\
  (exists o, a = rd_id o) /\ (exists o, b = ram_id o) /\ (exists o, c = pc_id o).
Lemma components_row dbg w im rs1 rs2 rd a b c : word w ->
  components dbg w = Some (im, rs1, rs2, rd, a, b, c) -> row_ok im rs1 rs2 rd a b c.
Proof.
  intros W H. unfold components in H. destruct (get_imm dbg w) as [i|] eqn:I; [|discriminate].
  destruct (get_registers dbg w) as [[[r2 r1] r]|] eqn:R; [|discriminate].
  destruct (get_opid dbg w) as [[[o1 o2] o3]|] eqn:O; [|discriminate].
  injection H as <- <- <- <- <- <- <-. destruct (get_registers_range _ _ _ _ _ W R) as (R1 & R2 & R3).
  unfold row_ok. pose proof (get_imm_word _ _ _ W I). eauto 12.
Qed.
Definition rows_ok (r : roms) : Prop :=
  Forall word (imm_rom r) /\ Forall (fun k => 0 <= k < 32) (rs1_rom r) /\ Forall (fun k => 0 <= k < 32) (rs2_rom r) /\
  Forall (fun k => 0 <= k < 32) (rd_rom r) /\ Forall (fun k => exists o, k = rd_id o) (rdu_rom r) /\
  Forall (fun k => exists o, k = ram_id o) (mu_rom r) /\ Forall (fun k => exists o, k = pc_id o) (pcu_rom r).
Lemma fill_rows dbg ws : Forall word ws -> forall r, fill dbg ws = Some r -> rows_ok r /\ rom_len (length ws) r.
Proof.
  induction 1 as [|w ws W F IH]; intros r H; cbn [fill] in H.
  - injection H as <-. unfold rows_ok, rom_len. cbn. auto 12.
  - destruct (components dbg w) as [[[[[[[im rs1] rs2] rd] a] b] c]|] eqn:C; [|discriminate].
    destruct (fill dbg ws) as [r'|]; [|discriminate]. injection H as <-.
    destruct (IH _ eq_refl) as ((F1 & F2 & F3 & F4 & F5 & F6 & F7) & (L1 & L2 & L3 & L4 & L5 & L6 & L7)).
    destruct (components_row _ _ _ _ _ _ _ _ _ W C) as (C1 & C2 & C3 & C4 & C5 & C6 & C7).
    unfold rows_ok, rom_len. cbn [imm_rom rs1_rom rs2_rom rd_rom rdu_rom mu_rom pcu_rom length].
    rewrite L1, L2, L3, L4, L5, L6, L7. auto 20 using Forall_cons.
Qed.
Lemma fill_some dbg ws : forall p p', parser_add_all dbg p ws = Some p' -> exists r, fill dbg ws = Some r.
Proof.
  induction ws as [|w ws IH]; intros p p' H; cbn [parser_add_all fill] in *; [eauto|].
  destruct (parser_add dbg p w) as [p1|] eqn:E; [|discriminate]. destruct (IH _ _ H) as [r ->].
  unfold parser_add in E. unfold components.
  destruct (get_registers dbg w) as [[[r2 r1] r0]|]; [|discriminate].
  destruct (get_opid dbg w) as [[[o1 o2] o3]|]; [|discriminate].
  destruct (get_imm dbg w); [|discriminate]. eauto.
Qed.

Lemma firstn_repeat k : forall n, (k <= n)%nat -> firstn k (repeat 0 n) = repeat 0 k.
Proof. induction k; intros [|n] H; cbn; auto; try lia. f_equal. apply IHk. lia. Qed.
Lemma table_padded n xs : (length xs <= n)%nat -> padded n xs = table n xs.
Proof. intro H. unfold padded, table. rewrite firstn_app, firstn_all2 by auto. f_equal. apply firstn_repeat. lia. Qed.
Lemma table_length n xs : (length xs <= n)%nat -> length (table n xs) = n.
Proof. intro. unfold table. rewrite app_length, repeat_length. lia. Qed.
Lemma table_Forall (P : Z -> Prop) n xs : Forall P xs -> P 0 -> Forall P (table n xs).
Proof.
  intros F H. unfold table. apply Forall_app. split; auto. apply Forall_forall. intros x Hx. apply repeat_spec in Hx. congruence.
Qed.
Lemma table_full n xs : length xs = n -> table n xs = xs.
Proof. intros <-. unfold table. rewrite Nat.sub_diag. apply app_nil_r. Qed.
Lemma pad_full n r : rom_len n r -> pad_roms n r = r.
Proof. intros (L1 & L2 & L3 & L4 & L5 & L6 & L7). unfold pad_roms. rewrite !table_full by auto. now destruct r. Qed.

Lemma encrypt_table log m n xs ys : holds log m ys -> length ys = n -> (length xs <= n)%nat -> Forall is_word xs ->
  exists m', mem_encrypt log m (table n xs) = Some m' /\ holds log m' (table n xs).
Proof.
  intros H L HL F.
  pose proof (encrypt_eq log n m (table n xs)) as E. rewrite <- L in E at 1.
  specialize (E (holds_shaped _ _ _ H)). rewrite table_length in E by auto.
  assert (D : (n / 32 <=? n)%nat = true) by (apply Nat.leb_le, Nat.div_le_upper_bound; lia). rewrite D in E.
  destruct E as (m' & E1 & E2). { apply table_Forall; auto. apply is_word_0. }
  exists m'. split; auto. rewrite table_padded in E2 by (rewrite table_length; auto).
  now rewrite (table_full n (table n xs)) in E2 by (apply table_length; auto).
Qed.
Lemma encrypt_short log m n xs ys : holds log m ys -> length ys = n -> (length xs <= n)%nat -> Forall is_word xs ->
  exists m', mem_encrypt log m xs = Some m' /\ holds log m' (table n xs).
Proof.
  intros H L HL F.
  pose proof (encrypt_eq log n m xs) as E. rewrite <- L in E at 1. specialize (E (holds_shaped _ _ _ H) F).
  assert (D : (length xs / 32 <=? n)%nat = true) by (apply Nat.leb_le, Nat.div_le_upper_bound; lia). rewrite D in E.
  destruct E as (m' & E1 & E2). exists m'. split; auto. now rewrite table_padded in E2 by auto.
Qed.
Lemma rd_id_word o : is_word (rd_id o). Proof. destruct o; unfold is_word; cbn; lia. Qed.
Lemma ram_id_word o : is_word (ram_id o). Proof. destruct o; unfold is_word; cbn; lia. Qed.
Lemma pc_id_word o : is_word (pc_id o). Proof. destruct o; unfold is_word; cbn; lia. Qed.
Lemma pc_id_listed o : In (pc_id o mod 16) (map pc_id PC_LIST).
Proof. destruct o; vm_compute; auto 10. Qed.
Lemma rows_words r : rows_ok r -> Forall is_word (imm_rom r) /\ Forall is_word (rs1_rom r) /\ Forall is_word (rs2_rom r) /\
  Forall is_word (rd_rom r) /\ Forall is_word (rdu_rom r) /\ Forall is_word (mu_rom r) /\ Forall is_word (pcu_rom r).
Proof.
  intros (F1 & F2 & F3 & F4 & F5 & F6 & F7).
  assert (S : forall k, 0 <= k < 32 -> is_word k) by (unfold is_word; intros; lia).
  repeat apply conj; eapply Forall_impl; try eassumption; cbv beta; auto.
  - intros a [o ->]; apply rd_id_word.
  - intros a [o ->]; apply ram_id_word.
  - intros a [o ->]; apply pc_id_word.
Qed.

(** the shadow VM right after loading *)
Definition dstart (rom_words ram_words : nat) (r : roms) (ram : list Z) : dvm :=
  let d := dvm_new rom_words ram_words in
  {| ram_size := ram_size d; rom_size := rom_size d; dpc := 0; drom := r; dregs := repeat 0 32; dram := ram; lat := lat d |}.

Lemma load_ok log dbg debug ws rom_words ram rb mb p r :
  Forall word ws -> parser_add_all dbg parser_new ws = Some p -> fill dbg ws = Some r ->
  (length ws <= rom_words)%nat -> bit_len_pred (Z.of_nat rom_words) = Some rb -> (rb <= 30)%nat ->
  Forall word ram -> (length ram <= 2 ^ mb)%nat -> (mb <= 30)%nat ->
  (debug = true -> length ws = rom_words /\ length ram = (2 ^ mb)%nat) ->
  exists v, load log dbg debug rom_words (2 ^ mb) p ram = Some v /\
    shows log rb mb v (xstart rom_words (2 ^ mb) r ram) /\
    v_debug v = (if debug then Some (dstart rom_words (2 ^ mb) r ram) else None).
Proof.
  intros FW HP HF HL HB Hrb FR HR Hmb HD.
  assert (RP : (0 < rom_words)%nat) by (apply bit_len_bounds in HB as (? & _); lia).
  pose proof (Nat.pow_nonzero 2 mb ltac:(lia)) as MP.
  destruct (alloc_shaped log rom_words RP) as (m & A1 & A2).
  destruct (alloc_shaped log 32 ltac:(lia)) as (mr & B1 & B2).
  destruct (alloc_shaped log (2 ^ mb) ltac:(lia)) as (mm & C1 & C2).
  destruct (parser_add_all_entries _ _ _ _ HP) as (imms & inss & _ & L1 & L2 & P1 & P2 & P3).
  cbn [parser_new Codec.p_imm p_ins p_raw app] in P1, P2, P3.
  destruct (fill_rows dbg ws FW r HF) as [RO RL]. destruct (rows_words r RO) as (W1 & W2 & W3 & W4 & W5 & W6 & W7).
  destruct RL as (L1' & L2' & L3' & L4' & L5' & L6' & L7').
  assert (FR' : Forall is_word ram) by (eapply Forall_impl; [|exact FR]; intro; apply is_word_word).
  pose proof (fun xs => encrypt_table log m rom_words xs _ A2 (repeat_length _ _)) as ET.
  destruct (ET (rs1_rom r) ltac:(lia) W2) as (m1 & E1 & H1). destruct (ET (rs2_rom r) ltac:(lia) W3) as (m2 & E2 & H2).
  destruct (ET (rd_rom r) ltac:(lia) W4) as (m3 & E3 & H3). destruct (ET (imm_rom r) ltac:(lia) W1) as (m4 & E4 & H4).
  destruct (ET (rdu_rom r) ltac:(lia) W5) as (m5 & E5 & H5). destruct (ET (mu_rom r) ltac:(lia) W6) as (m6 & E6 & H6).
  destruct (ET (pcu_rom r) ltac:(lia) W7) as (m7 & E7 & H7).
  destruct (encrypt_short log mm (2 ^ mb) ram _ C2 (repeat_length _ _) HR FR') as (m8 & E8 & H8).
  assert (MS : m_size mm = (2 ^ mb)%nat) by (destruct C2 as (Q & _); rewrite Q, repeat_length; reflexivity).
  unfold load, evm_new. rewrite A1, B1, C1, bit_len_pow, HB. cbv beta iota.
  unfold instructions_encrypt. cbn [v_debug v_rom v_rom_size e_imm e_rs1 e_rs2 e_rd e_rdu e_mu e_pcu].
  rewrite P2, P3, L2.
  assert (FI : firstn (length ws) ws = ws) by apply firstn_all. 
  assert (SI : (do d <- match (if debug then Some (dvm_new rom_words (2 ^ mb)) else None) with
       | Some d => do d' <- set_instructions dbg d p; Some (Some d') | None => Some None end; Some d) =
     Some (if debug then Some {| ram_size := u32 (Z.of_nat (2 ^ mb)); rom_size := u32 (Z.of_nat rom_words); dpc := 0;
        drom := r; dregs := repeat 0 32; dram := repeat 0 (2 ^ mb); lat := lat (dvm_new rom_words (2 ^ mb)) |} else None)).
  { destruct debug; [|reflexivity]. unfold set_instructions. cbn [dvm_new drom imm_rom ram_size rom_size dpc dregs dram].
    destruct (HD eq_refl) as [HD1 _]. rewrite repeat_length, P2, L2, P3, HD1, Nat.eqb_refl, Nat.leb_refl.
    rewrite <- HD1, FI, HF. reflexivity. }
  match type of SI with (match ?X with _ => _ end = _) => destruct X as [d0|] eqn:EX; [|discriminate] end.
  match type of SI with Some ?a = Some ?b => assert (ED : a = b) by congruence end. rewrite ED. clear EX SI ED. cbv beta iota.
  rewrite Nat.leb_refl, FI, HF, (proj2 (Nat.leb_le _ _) HL), E1, E2, E3, E4, E5, E6, E7. cbv beta iota.
  unfold ram_encrypt. cbn [v_debug v_ram v_rom v_rom_size v_cycle v_rom_bits v_regs v_ram_bits v_ram_size v_pc v_pcp].
  rewrite MS, (proj2 (Nat.leb_le _ _) HR).
  assert (SR : (match (if debug then Some {| ram_size := u32 (Z.of_nat (2 ^ mb)); rom_size := u32 (Z.of_nat rom_words); dpc := 0;
        drom := r; dregs := repeat 0 32; dram := repeat 0 (2 ^ mb); lat := lat (dvm_new rom_words (2 ^ mb)) |} else None) with
       | Some d => do d' <- set_ram d ram; Some (Some d') | None => Some None end) =
     Some (if debug then Some (dstart rom_words (2 ^ mb) r ram) else None)).
  { destruct debug; [|reflexivity]. unfold set_ram. cbn [dram].
    destruct (HD eq_refl) as [_ HD2]. rewrite repeat_length, HD2, Nat.eqb_refl. reflexivity. }
  rewrite SR. cbv beta iota. rewrite E8. eexists. split; [reflexivity|]. split; [|reflexivity].
  unfold shows, xstart, pad_roms, rom_holds, rom_len.
  cbn [v_debug v_ram v_rom v_rom_size v_cycle v_rom_bits v_regs v_ram_bits v_ram_size v_pc v_pcp
    e_imm e_rs1 e_rs2 e_rd e_rdu e_mu e_pcu x_cycle x_rom x_regs x_ram x_pc x_last
    imm_rom rs1_rom rs2_rom rd_rom rdu_rom mu_rom pcu_rom].
  repeat match goal with |- _ /\ _ => split end; auto; try (apply table_length; lia); try lia.
  - apply table_Forall.
    + destruct RO as (_ & _ & _ & _ & _ & _ & F7). eapply Forall_impl; [|exact F7]. cbv beta. intros a [o ->]. apply pc_id_listed.
    + vm_compute. auto.
  - apply enc_zero.
  - split; reflexivity.
Qed.

Lemma start_follows rom_words ws dbg r ram mb : Forall word ws -> fill dbg ws = Some r -> length ws = rom_words ->
  length ram = (2 ^ mb)%nat -> (mb <= 30)%nat ->
  follows mb (xstart rom_words (2 ^ mb) r ram) (dstart rom_words (2 ^ mb) r ram).
Proof.
  intros FW HF L1 L2 Hmb. destruct (fill_rows dbg ws FW r HF) as [_ RL]. rewrite L1 in RL.
  unfold follows, xstart, dstart, x_next. cbn [x_rom x_regs x_ram x_last x_cycle x_pc drom dregs dram dpc ram_size dvm_new Z.eqb].
  rewrite pad_full, table_full by auto. repeat apply conj; auto.
  rewrite pow_nat. unfold u32. apply Z.mod_small. split; [apply Z.pow_nonneg; lia|].
  change 4294967296 with (2 ^ 32). apply Z.pow_lt_mono_r; lia.
Qed.
