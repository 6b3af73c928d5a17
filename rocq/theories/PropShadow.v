(** * C62, C63: what the shadow VM computes, and when a run with the debugging key completes *)
Require Import ZArith List Bool Lia.
Require Import Verif.Word Verif.Isa Verif.Codec Verif.DecodeSpec Verif.DecodeAccept Verif.EvalSpec Verif.EvalPlain Verif.EvalFacts Verif.RunSpec Verif.ListFacts
  Verif.DebugVM Verif.DebugSpec Verif.DebugFacts Verif.RunFacts Verif.DebugLoad Verif.Glwe Verif.EncMem Verif.MemSpec Verif.EncVM Verif.EncSpec
  Verif.EncCycle Verif.EncTrack Verif.EncLoad Verif.EncRun Verif.ExactSpec Verif.ExactFacts Verif.ShadowSpec Verif.ShadowFacts.
Require Verif.PropEnc Verif.PropCodec.
Import ListNotations.
Ltac Zify.zify_post_hook ::= idtac.
Open Scope Z_scope.

Lemma nth_zero n : forall k, nth_error (repeat 0 n) k = if (k <? n)%nat then Some 0 else None.
Proof. induction n as [|n IH]; intros [|k]; cbn [repeat nth_error]; auto. rewrite IH. reflexivity. Qed.
Lemma regs0_words : Forall word (repeat 0 32).
Proof. apply Forall_forall. intros z Hz. apply repeat_spec in Hz. unfold word. lia. Qed.
Lemma start_shows n d ram : dpc d = 0 -> dregs d = repeat 0 32 -> dram d = ram -> ram_size d = n -> Z.of_nat (length ram) = n ->
  sh_shows d (sh_start ram).
Proof.
  intros E1 E2 E3 E4 E5. unfold sh_shows, sh_start. cbn [s_pc s_rf s_ram]. rewrite E1, E2, E3, E4. split; [reflexivity|]. split.
  - intros r Hr. unfold reg in Hr. rewrite nth_zero. destruct (Nat.ltb_spec (Z.to_nat r) 32); [|lia]. unfold get. destruct (r =? 0); reflexivity.
  - intros k Hk. apply nth_error_nth'. lia.
Qed.
(** the state set up by [DebugVM::new], [set_instructions] and [set_ram] *)
Lemma boot_inv dbg prog ram d : Forall word prog -> Forall word ram -> (0 < length ram)%nat -> Z.of_nat (length ram) < 2 ^ 32 ->
  DebugLoad.boot dbg prog ram = Some d ->
  dvm_ok d /\ fill dbg prog = Some (drom d) /\ sh_shows d (sh_start ram) /\ ram_size d = Z.of_nat (length ram).
Proof.
  intros FP FR H0 H1 B. unfold DebugLoad.boot in B.
  destruct (parser_add_all dbg parser_new prog) as [p|] eqn:HP; [|discriminate].
  destruct (parser_add_all_entries _ _ _ _ HP) as (imms & inss & _ & L1 & L2 & P1 & P2 & P3).
  cbn [parser_new p_imm p_ins p_raw app] in P1, P2, P3.
  unfold set_instructions in B. rewrite P2, P3, L2 in B. cbn [dvm_new drom imm_rom] in B. rewrite repeat_length in B.
  rewrite Nat.eqb_refl, Nat.leb_refl, firstn_all in B. destruct (fill dbg prog) as [r|] eqn:HF; [|discriminate].
  unfold set_ram in B. cbn [dram dvm_new] in B. rewrite repeat_length, Nat.eqb_refl in B. injection B as <-.
  assert (E : u32 (Z.of_nat (length ram)) = Z.of_nat (length ram)) by (unfold u32; apply Z.mod_small; lia).
  split; [|split; [reflexivity|split]].
  - unfold dvm_ok. cbn [dregs dpc dram ram_size dvm_new]. rewrite E. split; [reflexivity|]. split; [exact regs0_words|].
    split; [reflexivity|]. split; [unfold word; lia|]. split; [reflexivity|]. split; [lia|exact FR].
  - apply (start_shows (Z.of_nat (length ram))); try reflexivity. exact E.
  - exact E.
Qed.

(** C62.  The shadow VM, loaded with any accepted program and any RAM, run for
    any number of cycles: the machine of [ShadowSpec], panics included. *)
Theorem C62_shadow_exact :
  forall (dbg : bool) (prog ram : list Z) (d : dvm) (n : nat),
    Forall word prog -> Forall word ram -> (0 < length ram)%nat -> Z.of_nat (length ram) < 2 ^ 32 ->
    DebugLoad.boot dbg prog ram = Some d ->
    match dcycles RD_RV32I n d, sh_run false (Z.of_nat (length ram)) prog n (sh_start ram) with
    | Some d', Some m => sh_shows d' m /\ length (dregs d') = 32%nat /\ length (dram d') = length ram
    | None, None => True
    | _, _ => False
    end.
Proof.
  intros dbg prog ram d n FP FR H0 H1 B. destruct (boot_inv _ _ _ _ FP FR H0 H1 B) as (OK & HF & SH & RS).
  pose proof (sh_run_ok dbg prog FP n d (sh_start ram) OK HF SH) as A. rewrite RS in A. unfold d_agree in A.
  destruct (dcycles RD_RV32I n d) as [d'|], (sh_run false (Z.of_nat (length ram)) prog n (sh_start ram)) as [m|]; auto.
  destruct A as (OK' & SH' & (_ & T2 & _ & T4)). split; [exact SH'|]. split; [apply OK'|]. destruct OK as (_ & _ & _ & _ & HL & _). lia.
Qed.
Print Assumptions C62_shadow_exact.
(** the same from any state *)
Theorem C62_shadow_step :
  forall (dbg : bool) (prog : list Z) (d : dvm) (m : sm),
    Forall word prog -> dvm_ok d -> fill dbg prog = Some (drom d) -> sh_shows d m ->
    match dcycle RD_RV32I d, sh_step false (ram_size d) prog m with
    | Some d', Some m' => dvm_ok d' /\ sh_shows d' m' /\ dstatic d d'
    | None, None => True
    | _, _ => False
    end.
Proof. intros dbg prog d m FP OK HF SH. exact (sh_step_ok dbg prog FP d m OK HF SH). Qed.
Print Assumptions C62_shadow_step.
(** A RAM of three words: address 2^18 + 12 is the first word again; LB sees the
    low byte only, whatever the address; SYSTEM words do nothing; the cycle after
    the last instruction panics. *)
Example C62_case :
  exists d, DebugLoad.boot true (map encode [LUI 1 0x40; LOAD LB 2 1 13; STORE SB 1 2 6] ++ [0x73]) [0x1234; 0xAABBCCF0; 5] = Some d /\
    match dcycles RD_RV32I 4 d with
    | Some d' => dpc d' = 16 /\ dregs d' = [0; 2 ^ 18; 0x34] ++ repeat 0 29 /\ dram d' = [0x1234; 0xAA34CCF0; 5]
    | None => False
    end /\ dcycles RD_RV32I 5 d = None.
Proof. eexists. split; [vm_compute; reflexivity|]. vm_compute. auto. Qed.

(** ** The encrypted VM with the debugging key *)
Lemma strict_run dbg ws (FW : Forall word ws) log rb mb sk chk es : key_ok log sk true -> Forall env_ok es -> forall v s d m,
  shows log rb mb v s -> follows mb s d -> dvm_ok d -> fill dbg ws = Some (drom d) -> sh_shows d m ->
  x_cycle s + Z.of_nat (length es) < 4294967296 -> v_debug v = Some d ->
  match ecycles (Ideal log) sk chk es v, sh_run true (ram_size d) ws (length es) m with
  | Some v', Some m' => exists d', shows log rb mb v' (xcycles rb mb (length es) s) /\
      follows mb (xcycles rb mb (length es) s) d' /\ dvm_ok d' /\ sh_shows d' m' /\ dstatic d d'
  | None, None => True
  | _, _ => False
  end.
Proof.
  intros K F. induction F as [|e es He F IH]; intros v s d m S FO OK HF SH HC HD.
  - cbn [ecycles length sh_run]. exists d. split; [exact S|]. split; [exact FO|]. split; [exact OK|]. split; [exact SH|]. unfold dstatic. auto.
  - cbn [length ecycles sh_run xcycles] in *.
    pose proof (strict_ok dbg ws FW log rb mb v s d m S FO OK HF SH) as A.
    destruct (cycle_ok log sk true e K He rb mb chk v s S) as (mk & Hmk & E). rewrite E, HD.
    destruct (sh_step true (ram_size d) ws m) as [m1|]; [|now rewrite A].
    destruct A as (d1 & X & _ & OK1 & SH1 & (T1 & T2 & T3 & T4) & FO1). rewrite X.
    assert (CC : negb chk || (x_cycle s + 1 <? 4294967296) = true).
    { rewrite (proj2 (Z.ltb_lt _ _)) by lia. apply orb_true_r. }
    rewrite CC. destruct (Hmk (Some d1)) as [S' D'].
    assert (C1 : x_cycle (xcycle rb mb s) = x_cycle s + 1).
    { rewrite xcycle_counter. destruct S as (_ & _ & _ & _ & _ & _ & _ & _ & _ & _ & _ & _ & _ & _ & _ & _ & R & _).
      apply to_word_small. unfold word. lia. }
    assert (HF1 : fill dbg ws = Some (drom d1)) by (rewrite T1; exact HF).
    specialize (IH (mk (Some d1)) (xcycle rb mb s) d1 m1 S' (FO1 ltac:(lia)) OK1 HF1 SH1 ltac:(lia) D').
    rewrite T2 in IH.
    destruct (ecycles (Ideal log) sk chk es (mk (Some d1))) as [v2|], (sh_run true (ram_size d) ws (length es) m1) as [m2|]; auto.
    destruct IH as (d2 & I1 & I2 & I3 & I4 & (U1 & U2 & U3 & U4)). exists d2. repeat (split; [assumption|]).
    unfold dstatic. repeat split; congruence.
Qed.

(** C63.  With the debugging key the run completes exactly when the machine does
    that also stops at every difference between the two VMs, and then what is
    decrypted is that machine's state. *)
Theorem C63_checked_runs_exact :
  forall log dbg rom_words rb mb ws ram v0 sk chk es,
    fits true rom_words rb mb ws ram -> boots log dbg true rom_words mb ws ram v0 ->
    key_ok log sk true -> Forall env_ok es -> Z.of_nat (length es) < 2 ^ 32 ->
    match ecycles (Ideal log) sk chk es v0, sh_run true (2 ^ Z.of_nat mb) ws (length es) (sh_start ram) with
    | Some v, Some m =>
        (exists regs, dec_regs v = Some regs /\ length regs = 32%nat /\
           forall r, reg r -> nth_error regs (Z.to_nat r) = Some (get (s_rf m) r)) /\
        (exists ram', dec_ram v = Some ram' /\ length ram' = (2 ^ mb)%nat /\
           forall k, 0 <= k < 2 ^ Z.of_nat mb -> nth_error ram' (Z.to_nat k) = Some (s_ram m k)) /\
        dec_pc v = s_pc m
    | None, None => True
    | _, _ => False
    end.
Proof.
  intros log dbg rom_words rb mb ws ram v0 sk chk es F B K HE HC.
  destruct (boots_shows _ _ _ _ _ _ _ _ _ F B) as (r & HF & S & D).
  pose proof F as (F1 & F2 & F3 & F4 & F5 & F6 & F7 & F8). destruct (F8 eq_refl) as [F9 F10].
  pose proof (start_follows rom_words ws dbg r ram mb F1 HF F9 F10 F7) as FO.
  set (d := dstart rom_words (2 ^ mb) r ram) in *.
  assert (P2 : 0 < 2 ^ Z.of_nat mb) by (apply Z.pow_pos_nonneg; lia).
  assert (RS : ram_size d = 2 ^ Z.of_nat mb) by apply FO.
  assert (LR : Z.of_nat (length ram) = 2 ^ Z.of_nat mb) by (rewrite F10; apply pow_nat).
  assert (OK : dvm_ok d).
  { unfold dvm_ok. rewrite RS. cbn [d dstart dregs dpc dram]. split; [reflexivity|]. split; [exact regs0_words|].
    split; [reflexivity|]. split; [unfold word; lia|]. split; [exact LR|]. split; [lia|exact F5]. }
  assert (SH : sh_shows d (sh_start ram)) by (apply (start_shows (2 ^ Z.of_nat mb)); try reflexivity; assumption).
  pose proof (strict_run dbg ws F1 log rb mb sk chk es K HE v0 _ d (sh_start ram) S FO OK HF SH ltac:(cbn [x_cycle xstart]; lia) D) as A.
  rewrite RS in A.
  destruct (ecycles (Ideal log) sk chk es v0) as [v|], (sh_run true (2 ^ Z.of_nat mb) ws (length es) (sh_start ram)) as [m|]; auto.
  destruct A as (d' & S' & FO' & OK' & (Q1 & Q2 & Q3) & (U1 & U2 & U3 & U4)).
  rewrite (shows_regs _ _ _ _ _ S'), (shows_ram _ _ _ _ _ S'), (shows_pc _ _ _ _ _ S').
  destruct FO' as (_ & -> & -> & NX & RS'). split; [|split].
  - exists (dregs d'). split; [reflexivity|]. split; [apply OK'|exact Q2].
  - exists (dram d'). split; [reflexivity|]. split; [rewrite U4; exact F10|]. intros k Hk. apply Q3. rewrite RS'. exact Hk.
  - rewrite <- Q1, <- NX. unfold x_next.
    destruct (Z.eqb_spec (x_cycle (xcycles rb mb (length es) (xstart rom_words (2 ^ mb) r ram))) 0) as [Q|Q]; auto.
    rewrite xcycles_counter in Q by (cbn [x_cycle xstart]; lia). cbn [x_cycle xstart] in Q. destruct es; [reflexivity|cbn [length] in Q; lia].
Qed.
Print Assumptions C63_checked_runs_exact.
(** LB of a byte below 128 passes the checks, a byte above does not, even when
    the result is thrown away. *)
Example C63_case :
  let run i n := do v0 <- PropEnc.ex_load true 1 1 [LOAD LB 0 0 0] [i; 0]; PropEnc.ex_run (Some secret_key) n v0 in
  (exists v, run 127 1%nat = Some v /\ dec_pc v = 4) /\ run 128 1%nat = None /\ run 127 2%nat = None /\
  sh_run true 2 (map encode [LOAD LB 0 0 0]) 1 (sh_start [127; 0]) <> None /\
  sh_run true 2 (map encode [LOAD LB 0 0 0]) 1 (sh_start [128; 0]) = None /\
  sh_run true 2 (map encode [LOAD LB 0 0 0]) 2 (sh_start [127; 0]) = None.
Proof.
  split; [eexists; split; vm_compute; reflexivity|]. split; [vm_compute; reflexivity|]. split; [vm_compute; reflexivity|].
  split; [vm_compute; discriminate|]. vm_compute. auto.
Qed.
