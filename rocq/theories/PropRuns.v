(** * The repository's interpreter tests: C82, C83 *)
Require Import ZArith List Bool Lia.
Require Import Verif.Word Verif.Isa Verif.Codec Verif.Bdd Verif.DecodeSpec Verif.DecodeFacts Verif.DecodeAccept Verif.EvalPlain Verif.EvalSpec Verif.EvalFacts Verif.ListFacts
  Verif.DebugVM Verif.Glwe Verif.Par Verif.EncMem Verif.MemSpec Verif.MemFacts Verif.MemOps Verif.MemClient Verif.EncEval Verif.EncVM Verif.EncSpec Verif.EncFacts
  Verif.EncCycle Verif.EncTrack Verif.EncLoad Verif.EncRun Verif.ExactSpec Verif.ExactFacts Verif.ShadowSpec Verif.RepoTests Verif.RepoRuns.
Require Verif.Asm Verif.PropEnc Verif.PropCodec Verif.PropExact Verif.PropShadow Verif.PropTests.
Import ListNotations.
Ltac Zify.zify_post_hook ::= idtac.
Open Scope Z_scope.

Section Programmed.
Context (log : nat) (dbg : bool) (rom_size rb mb : nat) (ws : list Z).
Hypothesis (FW : Forall word ws) (HB : bit_len_pred (Z.of_nat rom_size) = Some rb) (Hrb : (rb <= 30)%nat) (Hmb : (mb <= 30)%nat).

Lemma programmed_ok : Forall (accepted dbg) ws -> (length ws <= rom_size)%nat ->
  exists p v r, programmed log dbg rom_size (2 ^ mb) ws = Some (p, v) /\ p_raw p = ws /\ fill dbg ws = Some r /\
    shows log rb mb v (xstart rom_size (2 ^ mb) r []) /\ v_debug v = None /\ v_cycle v = 0 /\ v_rom_size v = rom_size.
Proof.
  intros A L. destruct (parser_accepts dbg ws A parser_new) as [p HP]. destruct (fill_some _ _ _ _ HP) as [r HF].
  destruct (parser_add_all_entries _ _ _ _ HP) as (imms & inss & _ & _ & _ & _ & _ & P3). cbn [parser_new p_raw app] in P3.
  assert (Q : (length (@nil Z) <= 2 ^ mb)%nat) by (cbn; lia).
  destruct (load_ok log dbg false ws rom_size [] rb mb p r FW HP HF L HB Hrb (Forall_nil _) Q Hmb ltac:(discriminate)) as (v' & E & S & D).
  unfold load in E. destruct (evm_new (Ideal log) false rom_size (2 ^ mb)) as [v0|] eqn:E0; [|discriminate].
  destruct (instructions_encrypt log dbg v0 p) as [v1|] eqn:E1; [|discriminate].
  exists p, v1, r. unfold programmed. rewrite E0, HP, E1. split; [reflexivity|]. split; [exact P3|]. split; [exact HF|].
  (* the RAM, which is not encrypted here *)
  pose proof (Nat.pow_nonzero 2 mb ltac:(lia)) as MP.
  destruct (alloc_shaped log (2 ^ mb) ltac:(lia)) as (mm & C1 & C2).
  assert (R0 : v_ram v0 = mm /\ v_debug v0 = None /\ v_cycle v0 = 0 /\ v_rom_size v0 = rom_size).
  { unfold evm_new in E0. destruct (mem_alloc (Ideal log) 32 rom_size); [|discriminate]. destruct (mem_alloc (Ideal log) 32 32); [|discriminate].
    rewrite C1 in E0. destruct (bit_len_pred (Z.of_nat (2 ^ mb))); [|discriminate]. rewrite HB in E0. injection E0 as <-. auto. }
  destruct R0 as (R0 & D0 & Y0 & Z0).
  assert (R1 : v_ram v1 = v_ram v0 /\ v_debug v1 = None /\ v_cycle v1 = 0 /\ v_rom_size v1 = rom_size).
  { unfold instructions_encrypt in E1. rewrite D0 in E1.
    destruct (length (p_ins p) <=? length (p_raw p))%nat; [|discriminate].
    destruct (fill dbg (firstn (length (p_ins p)) (p_raw p))); [|discriminate].
    destruct (length (p_ins p) <=? v_rom_size v0)%nat; [|discriminate].
    repeat match type of E1 with context [mem_encrypt ?l ?m ?t] => destruct (mem_encrypt l m t); [|discriminate] end.
    injection E1 as <-. cbn. auto. }
  destruct R1 as (R1 & D1 & Y1 & Z1). split; [|auto].
  unfold ram_encrypt in E. destruct (length (@nil Z) <=? m_size (v_ram v1))%nat; [|discriminate]. rewrite D1 in E.
  destruct (mem_encrypt log (v_ram v1) []) as [m2|]; [|discriminate]. injection E as <-.
  unfold shows in *. cbn [v_rom v_rom_size v_rom_bits v_regs v_ram v_ram_size v_ram_bits v_pc v_pcp v_cycle] in S.
  destruct S as (S1 & S2 & S3 & S4 & S5 & S6 & S7 & S8 & S9 & S10). repeat (split; [assumption|]). split; [|exact S10].
  rewrite R1, R0. cbn [x_ram xstart table app length]. rewrite Nat.sub_0_r. exact C2.
Qed.

(** otherwise the tests panic while they load the program *)
Lemma programmed_inv p v : programmed log dbg rom_size (2 ^ mb) ws = Some (p, v) ->
  Forall (accepted dbg) ws /\ (length ws <= rom_size)%nat.
Proof.
  unfold programmed. destruct (evm_new (Ideal log) false rom_size (2 ^ mb)) as [v0|] eqn:E0; [|discriminate].
  destruct (parser_add_all dbg parser_new ws) as [p'|] eqn:HP; [|discriminate].
  pose proof (parser_rejects dbg ws _ _ HP) as A.
  destruct (parser_add_all_entries _ _ _ _ HP) as (imms & inss & _ & _ & L2 & _ & P2 & P3). cbn [parser_new p_ins p_raw app] in P2, P3.
  assert (V : v_rom_size v0 = rom_size).
  { unfold evm_new in E0. destruct (mem_alloc (Ideal log) 32 rom_size); [|discriminate]. destruct (mem_alloc (Ideal log) 32 32); [|discriminate].
    destruct (mem_alloc (Ideal log) 32 (2 ^ mb)); [|discriminate].
    destruct (bit_len_pred (Z.of_nat (2 ^ mb))); [|discriminate]. rewrite HB in E0. injection E0 as <-. reflexivity. }
  unfold instructions_encrypt. rewrite V, P2, L2.
  destruct (match v_debug v0 with Some d => _ | None => _ end); [|discriminate].
  destruct (length ws <=? length (p_raw p'))%nat; [|discriminate]. destruct (fill dbg _); [|discriminate].
  destruct (Nat.leb_spec (length ws) rom_size); [auto|discriminate].
Qed.

(** ** one fetch *)
Lemma fetch_ok er r pcp pc e : env_ok e -> rom_holds log er r -> rom_len rom_size r ->
  prepared pcp pc -> pc / 4 < 2 ^ Z.of_nat rb ->
  let g t := nth (Z.to_nat (pc / 4)) t 0 in
  exists cs, fetch log e er pcp = Some cs /\
    map decrypt_word cs = [g (imm_rom r); g (rs1_rom r); g (rs2_rom r); g (rd_rom r); g (rdu_rom r); g (mu_rom r); g (pcu_rom r)].
Proof.
  intros He (R1 & R2 & R3 & R4 & R5 & R6 & R7) (L1 & L2 & L3 & L4 & L5 & L6 & L7) P Hpc.
  pose proof (prepared_word _ _ P) as [Wp _]. assert (H0 : 0 <= pc / 4) by (apply Z.div_pos; lia).
  cbv zeta.
  assert (Ek : Z.to_nat (pc / 2 ^ Z.of_nat 2 mod 2 ^ Z.of_nat rb) = Z.to_nat (pc / 4)).
  { change (2 ^ Z.of_nat 2) with 4. rewrite Z.mod_small; auto. }
  assert (RD : forall i m ws, holds log m ws -> length ws = rom_size -> (i < 7)%nat ->
    exists c, mem_read_stateless (Ideal log) (n_threads e) (sched e i) m pcp 2 = Some (m, c) /\ enc_of c (nth (Z.to_nat (pc / 4)) ws 0)).
  { intros i m ws' Hm Hl Hi. rewrite <- Ek. apply read_one; auto; try lia. eapply holds_bits; eauto. now rewrite Hl. }
  destruct (RD 0%nat _ _ R1 L1 ltac:(lia)) as (c_imm & E1 & C1).
  destruct (RD 1%nat _ _ R5 L5 ltac:(lia)) as (c_rdu & E2 & C2).
  destruct (RD 2%nat _ _ R6 L6 ltac:(lia)) as (c_mu & E3 & C3).
  destruct (RD 3%nat _ _ R7 L7 ltac:(lia)) as (c_pcu & E4 & C4).
  destruct (RD 4%nat _ _ R2 L2 ltac:(lia)) as (c_rs1 & E5 & C5).
  destruct (RD 5%nat _ _ R3 L3 ltac:(lia)) as (c_rs2 & E6 & C6).
  destruct (RD 6%nat _ _ R4 L4 ltac:(lia)) as (c_rd & E7 & C7).
  unfold fetch. rewrite E1, E2, E3, E4, E5, E6, E7. eexists. split; [reflexivity|]. cbn [map].
  rewrite (enc_decrypt _ _ C1), (enc_decrypt _ _ C2), (enc_decrypt _ _ C3), (enc_decrypt _ _ C4),
    (enc_decrypt _ _ C5), (enc_decrypt _ _ C6), (enc_decrypt _ _ C7). reflexivity.
Qed.

Lemma check_fetch p er r e pcp idx : (length ws <= rom_size)%nat -> p_raw p = ws -> fill dbg ws = Some r ->
  rom_holds log er (pad_roms rom_size r) -> rom_len rom_size (pad_roms rom_size r) -> env_ok e ->
  prepared pcp (4 * Z.of_nat idx) -> (idx < length ws)%nat ->
  fetch_check log dbg p e er pcp idx = Some er.
Proof.
  intros L P3 HF RH RL He P Hi.
  destruct (bit_len_bounds _ _ HB) as (B1 & B2 & _).
  assert (Hpc : 4 * Z.of_nat idx / 4 < 2 ^ Z.of_nat rb).
  { rewrite Z.mul_comm, Z.div_mul by lia. lia. }
  destruct (fetch_ok er _ pcp _ e He RH RL P Hpc) as (cs & EC & DC). cbv zeta in DC.
  assert (K : key_ok log (Some secret_key) true) by apply key_secret.
  destruct (components_ok log (Some secret_key) true e K He er _ pcp _ rb rom_size RH RL HB Hrb P Hpc) as (q & EQ & _).
  destruct (nth_error_lt _ ws idx Hi) as [w Hw].
  pose proof (fill_at _ _ _ HF _ _ Hw) as C.
  destruct (fill_rows dbg ws FW r HF) as [_ RL'].
  rewrite <- (at_pad rom_size r idx (length ws) RL' L Hi) in C.
  unfold fetch_check, parser_get_raw. rewrite P3, Hw. unfold components in C.
  destruct (get_imm dbg w) as [im|]; [|discriminate]. destruct (get_registers dbg w) as [[[r2 r1] rd]|]; [|discriminate].
  destruct (get_opid dbg w) as [[[o1 o2] o3]|]; [|discriminate].
  rewrite EQ, EC. cbn [check]. rewrite DC.
  rewrite (Z.mul_comm 4), Z.div_mul, Nat2Z.id by lia.
  unfold at_row in C. injection C as -> -> -> -> -> -> ->. cbn [pad_roms imm_rom rs1_rom rs2_rom rd_rom rdu_rom mu_rom pcu_rom].
  rewrite eqb_list_refl. reflexivity.
Qed.

Lemma check_all p er r : (length ws <= rom_size)%nat -> p_raw p = ws -> fill dbg ws = Some r ->
  rom_holds log er (pad_roms rom_size r) -> rom_len rom_size (pad_roms rom_size r) ->
  forall es idx, Forall env_ok es -> (idx + length es <= length ws)%nat -> fetch_all log dbg p er idx es = Some tt.
Proof.
  intros L P3 HF RH RL es. induction es as [|e es IH]; intros idx F H; [reflexivity|]. apply Forall_cons_iff in F as [F1 F2].
  cbn [length fetch_all] in *. destruct (bit_len_bounds _ _ HB) as (B1 & B2 & _).
  assert (P30 : 2 ^ Z.of_nat rb <= 2 ^ 30) by (apply Z.pow_le_mono_r; lia). change (2 ^ 30) with 1073741824 in P30.
  assert (U : u32 (4 * Z.of_nat idx) = 4 * Z.of_nat idx) by (unfold u32; apply Z.mod_small; lia).
  rewrite (check_fetch p er r e) ; auto; try lia.
  - apply IH; auto. lia.
  - rewrite U. apply PropTests.enc_prep. unfold word. lia.
Qed.
End Programmed.

(** C82.  The test fetches every instruction of the program and compares the
    decrypted immediate, registers and operations with the decoder's: it passes
    exactly for the programs that the decoder accepts and that fit the ROM. *)
Theorem C82_many_instructions :
  forall log dbg rom_size rb mb ws es,
    Forall word ws -> bit_len_pred (Z.of_nat rom_size) = Some rb -> (rb <= 30)%nat -> (mb <= 30)%nat ->
    Forall env_ok es -> length es = length ws ->
    (test_many_instructions log dbg rom_size (2 ^ mb) es ws = Some tt <->
     Forall (accepted dbg) ws /\ (length ws <= rom_size)%nat).
Proof.
  intros log dbg rom_size rb mb ws es FW HB Hrb Hmb HE LE. unfold test_many_instructions. split.
  - destruct (programmed log dbg rom_size (2 ^ mb) ws) as [[p v]|] eqn:E; [|discriminate]. intros _.
    eapply programmed_inv; eauto.
  - intros [A L]. destruct (programmed_ok log dbg rom_size rb mb ws FW HB Hrb Hmb A L) as (p & v & r & E & P3 & HF & S & _ & _ & RZ).
    destruct S as (S1 & S2 & _). rewrite RZ in S2. rewrite E.
    apply (check_all log dbg rom_size rb mb ws FW HB Hrb Hmb p (v_rom v) r L P3 HF S1 S2 es 0 HE). lia.
Qed.
Print Assumptions C82_many_instructions.
Theorem C82_one_instruction :
  forall log dbg rom_size rb mb w e,
    word w -> bit_len_pred (Z.of_nat rom_size) = Some rb -> (rb <= 30)%nat -> (mb <= 30)%nat -> env_ok e ->
    (test_one_instruction log dbg rom_size (2 ^ mb) e w = Some tt <-> accepted dbg w).
Proof.
  intros log dbg rom_size rb mb w e W HB Hrb Hmb He. unfold test_one_instruction.
  assert (FW : Forall word [w]) by (repeat (apply Forall_cons || apply Forall_nil); assumption).
  split.
  - destruct (programmed log dbg rom_size (2 ^ mb) [w]) as [[p v]|] eqn:E; [|discriminate]. intros _.
    destruct (programmed_inv log dbg rom_size rb mb [w] HB p v E) as [A _]. now inversion A.
  - intro A. destruct (bit_len_bounds _ _ HB) as (B1 & _).
    assert (L : (length [w] <= rom_size)%nat) by (cbn; lia).
    destruct (programmed_ok log dbg rom_size rb mb [w] FW HB Hrb Hmb (Forall_cons _ A (Forall_nil _)) L)
      as (p & v & r & E & P3 & HF & S & _ & _ & RZ). rewrite E.
    assert (P : prepared (v_pcp v) (4 * Z.of_nat 0)) by apply S. destruct S as (S1 & S2 & _). rewrite RZ in S2.
    rewrite (check_fetch log dbg rom_size rb mb [w] FW HB Hrb Hmb p (v_rom v) r e (v_pcp v) 0 L P3 HF S1 S2 He P ltac:(cbn; lia)). reflexivity.
Qed.
Print Assumptions C82_one_instruction.
(** The programs of the tests; a word that is no instruction; a program longer than the ROM. *)
Example C82_case :
  forall log dbg es, Forall env_ok es -> length es = 12%nat ->
  test_many_instructions log dbg (2 ^ 10) (2 ^ 10) es many_words = Some tt /\
  test_many_instructions log dbg (2 ^ 3) (2 ^ 10) es many_words <> Some tt /\
  test_many_instructions log dbg (2 ^ 10) (2 ^ 10) es (0 :: tl many_words) <> Some tt.
Proof.
  intros log dbg es HE LE.
  assert (W : Forall word many_words) by (repeat (apply Forall_cons || apply Forall_nil); unfold word; lia).
  assert (A : Forall (accepted dbg) many_words).
  { repeat (apply Forall_cons || apply Forall_nil); apply PropExact.C59_accepted; try (unfold word; lia); vm_compute; discriminate. }
  split; [|split].
  - apply (C82_many_instructions log dbg (2 ^ 10) 10 10 many_words es W eq_refl ltac:(lia) ltac:(lia) HE LE).
    split; [exact A|]. apply Nat.leb_le. vm_compute. reflexivity.
  - intro H. apply (C82_many_instructions log dbg (2 ^ 3) 3 10 many_words es W eq_refl ltac:(lia) ltac:(lia) HE LE) in H as [_ H].
    cbn in H. lia.
  - intro H. assert (W' : Forall word (0 :: tl many_words)) by (repeat (apply Forall_cons || apply Forall_nil); unfold word; lia).
    apply (C82_many_instructions log dbg (2 ^ 10) 10 10 _ es W' eq_refl ltac:(lia) ltac:(lia) HE LE) in H as [H _].
    inversion H as [|? ? H' _]; subst. apply PropExact.C59_accepted in H'; [|unfold word; lia]. apply H'. vm_compute. reflexivity.
Qed.

(** ** C83: cycles *)
(** The first instruction, executed with all registers zero at pc 0. *)
Definition first_pc (mb : nat) (ws : list Z) : option Z :=
  match ws with
  | [] => None
  | w :: _ => match action_of w with
              | Some (Exec i) => Some (fst (fst (exec mb i 0 (fun _ => 0) (fun _ => 0))))
              | Some Skip => Some 4
              | None => None
              end
  end.
Theorem C83_noop :
  forall log dbg rom_size rb mb ws e,
    Forall word ws -> bit_len_pred (Z.of_nat rom_size) = Some rb -> (rb <= 30)%nat -> (mb <= 30)%nat -> env_ok e ->
    (test_noop log dbg rom_size (2 ^ mb) e ws = Some tt <->
     Forall (accepted dbg) ws /\ (length ws <= rom_size)%nat /\ first_pc mb ws = Some 4).
Proof.
  intros log dbg rom_size rb mb ws e FW HB Hrb Hmb He. unfold test_noop.
  assert (MAIN : Forall (accepted dbg) ws -> (length ws <= rom_size)%nat ->
    (test_noop log dbg rom_size (2 ^ mb) e ws = Some tt <-> first_pc mb ws = Some 4)).
  { intros A L. unfold test_noop.
    destruct (programmed_ok log dbg rom_size rb mb ws FW HB Hrb Hmb A L) as (p & v & r & E & P3 & HF & S & D & Y & RZ). rewrite E.
    set (v1 := {| v_cycle := v_cycle v |}).
    assert (S1 : shows log rb mb v1 (xstart rom_size (2 ^ mb) r [])).
    { unfold shows in *. subst v1. cbn [v_rom v_rom_size v_rom_bits v_regs v_ram v_ram_size v_ram_bits v_pc v_pcp v_cycle].
      destruct S as (T1 & T2 & T3 & T4 & T5 & T6 & T7 & T8 & T9 & T10 & T11 & T12 & T13 & T14 & T15).
      repeat (split; [assumption|]). split; [|exact T15]. apply enc_word. cbn [x_pc xstart]. apply is_word_0. }
    assert (K : key_ok log None false) by (left; auto).
    destruct (cycle_ok log None false e K He rb mb dbg v1 _ S1) as (mk & Hmk & EC).
    rewrite EC. rewrite xdebug_off. cbn [x_cycle xstart]. change (0 + 1 <? 4294967296) with true. rewrite orb_true_r.
    destruct (Hmk (v_debug v1)) as [S' _]. cbv iota beta.
    pose proof (q_step_ok log rb mb rom_size dbg ws r FW HF L v1 _ (q_start []) S1 eq_refl (start_same rom_size (2 ^ mb) r [] (Nat.le_0_l _)))
      as (_ & _ & Q & _).
    pose proof (shows_pc _ _ _ _ _ S') as DP. unfold dec_pc in DP. rewrite DP, Q.
    assert (FP : q_pc (q_step rb mb ws (q_start [])) = match first_pc mb ws with Some k => k | None => 0 end).
    { unfold q_step, first_pc. cbn [q_start q_cycle q_last]. change (0 mod 2 ^ 32 =? 0) with true. cbv iota. change (Z.to_nat (0 / 4)) with 0%nat.
      destruct ws as [|w ws']; [reflexivity|]. cbn [nth_error]. inversion A; subst. inversion FW; subst.
      match goal with X : accepted dbg w |- _ => apply PropExact.C59_accepted in X; [|assumption] end.
      destruct (action_of w) as [[i|]|]; [| |congruence].
      - cbn [q_rf q_ram].
        assert (G : forall ram ram' : Z -> Z, fst (fst (exec mb i 0 (fun _ => 0) ram)) = fst (fst (exec mb i 0 (fun _ => 0) ram'))).
        { intros ram ram'. destruct i; reflexivity. }
        rewrite (G (fun _ => 0) (fun k => nth (Z.to_nat k) [] 0)).
        destruct (exec mb i 0 _ _) as [[a b] c]. reflexivity.
      - reflexivity. }
    rewrite FP. destruct (first_pc mb ws) as [k|]; cbn [Z.eqb].
    - destruct (Z.eqb_spec k 4) as [->|N]; split; intro H; try reflexivity; try discriminate; congruence.
    - split; discriminate. }
  split.
  - intro H. destruct (programmed log dbg rom_size (2 ^ mb) ws) as [[p v]|] eqn:E; [|discriminate].
    destruct (programmed_inv log dbg rom_size rb mb ws HB p v E) as [A L]. split; [exact A|]. split; [exact L|].
    apply (MAIN A L). unfold test_noop. rewrite E. exact H.
  - intros (A & L & F). now apply (MAIN A L).
Qed.
Print Assumptions C83_noop.
(** a program of SYSTEM words, as in the test; a branch that is taken to elsewhere *)
Theorem C83_noop_system :
  forall log dbg rom_size rb mb ws e,
    Forall word ws -> Forall (fun w => w mod 128 = 0x73) ws -> ws <> [] -> (length ws <= rom_size)%nat ->
    bit_len_pred (Z.of_nat rom_size) = Some rb -> (rb <= 30)%nat -> (mb <= 30)%nat -> env_ok e ->
    test_noop log dbg rom_size (2 ^ mb) e ws = Some tt.
Proof.
  intros log dbg rom_size rb mb ws e FW F73 NE L HB Hrb Hmb He. apply (C83_noop log dbg rom_size rb mb ws e FW HB Hrb Hmb He).
  assert (SK : forall w, word w -> w mod 128 = 0x73 -> action_of w = Some Skip).
  { intros w W H. pose proof (act_row dbg w _ W (system_row dbg w W H)) as A.
    destruct (action_of w) as [[i|]|]; [|reflexivity|destruct A].
    destruct A as [_ A]. exfalso. destruct i; cbn in A; try (destruct o); try (destruct c); try (destruct k); discriminate A. }
  assert (AC : Forall (accepted dbg) ws).
  { rewrite Forall_forall in *. intros w Hw. apply PropExact.C59_accepted; [now apply FW|]. rewrite SK; auto. discriminate. }
  split; [exact AC|]. split; [exact L|]. destruct ws as [|w ws']; [congruence|]. cbn [first_pc].
  apply Forall_cons_iff in FW as [W _]. apply Forall_cons_iff in F73 as [Q _]. now rewrite (SK w W Q).
Qed.
Print Assumptions C83_noop_system.

(** ** Checked runs *)
(** C83.  A run of the test completes exactly when the decoder accepts the
    program and the machine of C63 does not stop. *)
Theorem C83_checked_runs :
  forall log dbg rb mb ws ram es,
    Forall word ws -> bit_len_pred (Z.of_nat (length ws)) = Some rb -> (rb <= 30)%nat ->
    Forall word ram -> length ram = (2 ^ mb)%nat -> (mb <= 30)%nat -> Forall env_ok es -> Z.of_nat (length es) < 2 ^ 32 ->
    (test_cycles log dbg es ws ram = Some tt <->
     Forall (accepted dbg) ws /\ sh_run true (2 ^ Z.of_nat mb) ws (length es) (sh_start ram) <> None).
Proof.
  intros log dbg rb mb ws ram es FW HB Hrb FR LR Hmb HE HC.
  assert (F : fits true (length ws) rb mb ws ram) by (unfold fits; rewrite LR; auto 12).
  assert (K : key_ok log (Some secret_key) true) by apply key_secret.
  assert (T : test_cycles log dbg es ws ram =
    match parser_add_all dbg parser_new ws with
    | Some p => do v <- load log dbg true (length ws) (2 ^ mb) p ram; do _ <- ecycles (Ideal log) (Some secret_key) dbg es v; Some tt
    | None => None
    end).
  { unfold test_cycles, load. rewrite LR.
    destruct (evm_new (Ideal log) true (length ws) (2 ^ mb)) as [v|]; destruct (parser_add_all dbg parser_new ws); try reflexivity.
    destruct (instructions_encrypt log dbg v p); reflexivity. }
  rewrite T. split.
  - destruct (parser_add_all dbg parser_new ws) as [p|] eqn:HP; [|discriminate].
    intro H. split; [eapply parser_rejects; eauto|].
    destruct (load log dbg true (length ws) (2 ^ mb) p ram) as [v0|] eqn:EL; [|discriminate].
    pose proof (PropShadow.C63_checked_runs_exact log dbg _ rb mb ws ram v0 (Some secret_key) dbg es F (ex_intro _ p (conj HP EL)) K HE HC) as X.
    destruct (ecycles (Ideal log) (Some secret_key) dbg es v0); [|discriminate].
    destruct (sh_run true (2 ^ Z.of_nat mb) ws (length es) (sh_start ram)); [discriminate|destruct X].
  - intros [A N]. destruct (boots_exists log dbg true _ rb mb ws ram F A) as (v0 & p & HP & EL). rewrite HP, EL.
    pose proof (PropShadow.C63_checked_runs_exact log dbg _ rb mb ws ram v0 (Some secret_key) dbg es F (ex_intro _ p (conj HP EL)) K HE HC) as X.
    destruct (ecycles (Ideal log) (Some secret_key) dbg es v0); [reflexivity|].
    destruct (sh_run true (2 ^ Z.of_nat mb) ws (length es) (sh_start ram)); [destruct X|congruence].
Qed.
Print Assumptions C83_checked_runs.

(** neither jump nor branch, no LB, nothing of the M extension *)
Definition straight (w : Z) : Prop :=
  match action_of w with
  | Some Skip => True
  | Some (Exec i) => match i with
                     | JAL _ _ | JALR _ _ _ | BRANCH _ _ _ _ | LOAD LB _ _ _ | OPM _ _ _ _ => False
                     | _ => True
                     end
  | None => False
  end.
Lemma straight_step n ws s w : nth_error ws (Z.to_nat (s_pc s / 4)) = Some w -> straight w ->
  exists s', sh_step true n ws s = Some s' /\ s_pc s' = to_word (s_pc s + 4).
Proof.
  intros N H. unfold sh_step. rewrite N. unfold straight in H. destruct (action_of w) as [[i|]|]; [| |destruct H].
  - destruct i; try (destruct H; fail); try (eexists; split; reflexivity).
    destruct k; try (destruct H; fail); eexists; split; reflexivity.
  - eexists. split; reflexivity.
Qed.
Lemma straight_run n ws : Forall straight ws -> 4 * Z.of_nat (length ws) < 2 ^ 32 ->
  forall c k s, s_pc s = 4 * Z.of_nat k -> (k + c <= length ws)%nat -> sh_run true n ws c s <> None.
Proof.
  intros F L c. induction c as [|c IH]; intros k s P H; [discriminate|]. cbn [sh_run].
  destruct (nth_error_lt _ ws k) as [w Hw]; [lia|].
  destruct (straight_step n ws s w) as (s' & E & P').
  - rewrite P, Z.mul_comm, Z.div_mul, Nat2Z.id by lia. exact Hw.
  - apply nth_error_In in Hw. rewrite Forall_forall in F. now apply F.
  - rewrite E. apply (IH (S k)); [|lia]. rewrite P', P. unfold to_word. rewrite Z.mod_small by lia. lia.
Qed.
(** Straight-line programs pass, whatever the operands, the RAM and the schedules,
    for up to as many cycles as there are instructions; no further. *)
Theorem C83_straight_line :
  forall log dbg rb mb ws ram es,
    Forall word ws -> bit_len_pred (Z.of_nat (length ws)) = Some rb -> (rb < 30)%nat ->
    Forall word ram -> length ram = (2 ^ mb)%nat -> (mb <= 30)%nat -> Forall env_ok es -> Z.of_nat (length es) < 2 ^ 32 ->
    Forall straight ws ->
    (test_cycles log dbg es ws ram = Some tt <-> (length es <= length ws)%nat).
Proof.
  intros log dbg rb mb ws ram es FW HB Hrb FR LR Hmb HE HC ST.
  destruct (bit_len_bounds _ _ HB) as (B1 & B2 & _).
  assert (P30 : 2 ^ Z.of_nat rb <= 2 ^ 29) by (apply Z.pow_le_mono_r; lia). change (2 ^ 29) with 536870912 in P30.
  assert (L4 : 4 * Z.of_nat (length ws) < 2 ^ 32) by lia.
  assert (A : Forall (accepted dbg) ws).
  { rewrite Forall_forall in *. intros w Hw. apply PropExact.C59_accepted; [now apply FW|]. specialize (ST w Hw).
    unfold straight in ST. destruct (action_of w); [discriminate|destruct ST]. }
  rewrite (C83_checked_runs log dbg rb mb ws ram es FW HB ltac:(lia) FR LR Hmb HE HC). split.
  - intros [_ N]. destruct (le_lt_dec (length es) (length ws)) as [G|G]; [exact G|]. exfalso. apply N.
    assert (R : forall c k s, s_pc s = 4 * Z.of_nat k -> (k <= length ws)%nat -> (length ws < k + c)%nat ->
      sh_run true (2 ^ Z.of_nat mb) ws c s = None).
    { induction c as [|c IH]; intros k s P H1 H2; [lia|]. cbn [sh_run].
      destruct (le_lt_dec (length ws) k) as [E|E].
      - unfold sh_step. rewrite P, Z.mul_comm, Z.div_mul, Nat2Z.id by lia. rewrite (proj2 (nth_error_None ws k)) by lia. reflexivity.
      - destruct (nth_error_lt _ ws k E) as [w Hw].
        destruct (straight_step (2 ^ Z.of_nat mb) ws s w) as (s' & E' & P').
        + rewrite P, Z.mul_comm, Z.div_mul, Nat2Z.id by lia. exact Hw.
        + apply nth_error_In in Hw. rewrite Forall_forall in ST. now apply ST.
        + rewrite E'. apply (IH (S k)); [|lia|lia]. rewrite P', P. unfold to_word. rewrite Z.mod_small by lia. lia. }
    apply (R (length es) 0%nat (sh_start ram)); [reflexivity|lia|lia].
  - intro L. split; [exact A|]. apply (straight_run _ ws ST L4 (length es) 0 (sh_start ram)); [reflexivity|lia].
Qed.
Print Assumptions C83_straight_line.

(** Both tests of the repository: for every schedule, with RAM of 64 zero words. *)
Example C83_case :
  forall log dbg es, Forall env_ok es ->
  (exists ws, assemble_all dbg cycle_program = Some ws /\ length ws = 9%nat /\
     (length es = 9%nat -> test_cycles log dbg es ws (repeat 0 64) = Some tt)) /\
  (length es = 100%nat -> test_cycles log dbg es progression_program (repeat 0 64) = Some tt) /\
  (length es = 101%nat -> test_cycles log dbg es progression_program (repeat 0 64) <> Some tt).
Proof.
  intros log dbg es HE.
  assert (R : Forall word (repeat 0 64)) by (apply Forall_forall; intros x Hx; apply repeat_spec in Hx; subst; unfold word; lia).
  assert (P : Forall word progression_program) by (apply Forall_forall; intros x Hx; apply repeat_spec in Hx; subst; unfold word; lia).
  assert (SP : Forall straight progression_program) by (apply Forall_forall; intros x Hx; apply repeat_spec in Hx; subst; vm_compute; exact I).
  assert (LP : length progression_program = 100%nat) by apply repeat_length.
  split; [|split].
  - exists [266167; 180146359; 250675511; 1081747; 4169763; 5214099; 4043350419; 4169763; 5214099].
    split; [destruct dbg; vm_compute; reflexivity|]. split; [reflexivity|]. intro L.
    apply (C83_straight_line log dbg 4 6).
    + repeat (apply Forall_cons || apply Forall_nil); unfold word; lia.
    + reflexivity.
    + lia.
    + exact R.
    + apply repeat_length.
    + lia.
    + exact HE.
    + lia.
    + repeat (apply Forall_cons || apply Forall_nil); vm_compute; exact I.
    + rewrite L. cbn. lia.
  - intro L. apply (C83_straight_line log dbg 7 6); auto; lia.
  - intros L H. apply (C83_straight_line log dbg 7 6) in H; auto; lia.
Qed.
(** What the first program does is not what its comments say: 0x1 is added, not
    0x1000, and the immediate of SLTI keeps only 12 of the bits of 0xEF10, so that
    0xABCD000 is compared with -240 and 0 is stored, where the comment has 1. *)
Example C83_program :
  match sh_run true 64 [266167; 180146359; 250675511; 1081747; 4169763; 5214099; 4043350419; 4169763; 5214099] 9 (sh_start (repeat 0 64)) with
  | Some m => s_ram m 0 = 0xABCD001 /\ s_ram m 1 = 0 /\ isa_of 4043350419 = Some (OPI SLTI 3 1 (-240)) /\
              (0xABCD * 2 ^ 12 <? 0xEF10 * 2 ^ 12) = true
  | None => False
  end.
Proof. vm_compute. auto. Qed.
