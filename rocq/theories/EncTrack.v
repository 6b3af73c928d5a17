(** Runs of the encrypted VM, and how it follows its shadow (proofs). *)
Require Import ZArith List Bool Lia.
Require Import Verif.Word Verif.Isa Verif.Bits Verif.Codec Verif.EvalSpec Verif.EvalPlain Verif.EvalFacts Verif.ListFacts
  Verif.DebugVM Verif.DebugFacts Verif.DebugStep Verif.Bdd Verif.BddFacts Verif.CircFacts Verif.Glwe Verif.GlweFacts Verif.Par Verif.ParFacts Verif.EncMem
  Verif.MemSpec Verif.MemFacts Verif.MemOps Verif.MemClient Verif.Prepare Verif.PrepFacts Verif.EncEval Verif.EncVM Verif.EncSpec
  Verif.EncFacts Verif.EncCycle.
Import ListNotations.
Ltac Zify.zify_post_hook ::= idtac.
Open Scope Z_scope.

(** ** without a key the shadow VM is not touched *)
Lemma check_off d st same : check false d st same = Some d.
Proof. now destruct d. Qed.
Lemma check_none on st same : check on None st same = Some None.
Proof. reflexivity. Qed.
Lemma xdebug_off rb mb s d : xdebug rb mb false s d = Some d.
Proof. unfold xdebug. now rewrite !check_off. Qed.
Lemma xdebug_none rb mb on s : xdebug rb mb on s None = Some None.
Proof. reflexivity. Qed.

Lemma xcycle_counter rb mb s : x_cycle (xcycle rb mb s) = to_word (x_cycle s + 1).
Proof. reflexivity. Qed.
Lemma xcycles_split rb mb n m s : xcycles rb mb (n + m) s = xcycles rb mb m (xcycles rb mb n s).
Proof. revert s; induction n; intro s; cbn; auto. Qed.
Lemma xcycles_counter rb mb n s : 0 <= x_cycle s -> x_cycle s + Z.of_nat n < 4294967296 ->
  x_cycle (xcycles rb mb n s) = x_cycle s + Z.of_nat n.
Proof.
  revert s; induction n as [|n IH]; intros s H0 H; cbn [xcycles]; [lia|].
  assert (E : x_cycle (xcycle rb mb s) = x_cycle s + 1).
  { rewrite xcycle_counter. apply to_word_small. unfold word. lia. }
  rewrite IH; rewrite E; lia.
Qed.

Section Runs.
Variable log : nat.
Notation I := (Ideal log).
Notation vm := (evm poly bool (list Z)).

(** a run that does not panic shows the machine's states *)
Lemma run_shows sk on rb mb chk es : key_ok log sk on -> Forall env_ok es -> forall v s v', shows log rb mb v s ->
  ecycles I sk chk es v = Some v' -> shows log rb mb v' (xcycles rb mb (length es) s).
Proof.
  intros K F. induction F as [|e es He F IH]; intros v s v' S H.
  - injection H as <-. exact S.
  - cbn [ecycles] in H. destruct (cycle_ok log sk on e K He rb mb chk v s S) as (mk & Hmk & E). rewrite E in H.
    destruct (xdebug rb mb on s (v_debug v)) as [d'|]; [|discriminate].
    destruct (negb chk || (x_cycle s + 1 <? 4294967296)); [|discriminate].
    cbn [length xcycles]. eapply IH; eauto. apply Hmk.
Qed.

(** without a key (or without a shadow VM) a run does not panic *)
Lemma run_succeeds sk on rb mb chk es : key_ok log sk on -> Forall env_ok es -> forall v s, shows log rb mb v s ->
  (on = false \/ v_debug v = None) ->
  (chk = false \/ x_cycle s + Z.of_nat (length es) < 4294967296) ->
  exists v', ecycles I sk chk es v = Some v' /\ v_debug v' = v_debug v.
Proof.
  intros K F. induction F as [|e es He F IH]; intros v s S D C.
  - exists v. auto.
  - cbn [ecycles]. destruct (cycle_ok log sk on e K He rb mb chk v s S) as (mk & Hmk & E). rewrite E.
    assert (X : xdebug rb mb on s (v_debug v) = Some (v_debug v)).
    { destruct D as [-> | ->]; [apply xdebug_off|apply xdebug_none]. }
    rewrite X. cbn [length] in C.
    assert (CC : negb chk || (x_cycle s + 1 <? 4294967296) = true).
    { destruct C as [-> |C]; [reflexivity|]. rewrite (proj2 (Z.ltb_lt _ _)) by lia. apply orb_true_r. }
    rewrite CC. destruct (Hmk (v_debug v)) as [S' D'].
    destruct (IH _ _ S') as (v' & E' & D'').
    + rewrite D'. exact D.
    + destruct C as [C|C]; [now left|right]. rewrite xcycle_counter. unfold to_word.
      destruct S as (_ & _ & _ & _ & _ & _ & _ & _ & _ & _ & _ & _ & _ & _ & _ & _ & R & _).
      rewrite Z.mod_small by lia. lia.
    + exists v'. split; auto. congruence.
Qed.

(** reading the results *)
Lemma shows_regs rb mb v s : shows log rb mb v s -> dec_regs v = Some (x_regs s).
Proof.
  intros (_ & _ & _ & _ & _ & _ & S7 & S8 & _). unfold dec_regs. now apply (decrypt_all log).
Qed.
Lemma shows_ram rb mb v s : shows log rb mb v s -> dec_ram v = Some (x_ram s).
Proof.
  intros (_ & _ & _ & _ & _ & _ & _ & _ & S9 & S10 & S11 & _). unfold dec_ram, ram_decrypt.
  pose proof S9 as (Sz & _). rewrite repeat_length, Sz, S11, S10, Nat.eqb_refl. now apply (decrypt_all log).
Qed.
Lemma shows_pc rb mb v s : shows log rb mb v s -> dec_pc v = x_pc s.
Proof. intros (_ & _ & _ & _ & _ & _ & _ & _ & _ & _ & _ & _ & _ & S14 & _). now apply enc_decrypt. Qed.
End Runs.

(** ** following the shadow *)
Lemma set_nth_put l n x r : set_nth l n x = Some r -> r = put_word l n x.
Proof.
  intro H. pose proof (set_nth_lt _ _ _ _ _ H) as L. rewrite put_word_upd by auto.
  revert n r H L. induction l as [|h t IH]; intros [|n] r H L; cbn in *; try discriminate; [congruence|].
  destruct (set_nth t n x) as [t'|] eqn:E; [|discriminate]. injection H as <-. f_equal. apply IH; auto. lia.
Qed.
Lemma eqb_list_refl l : eqb_list l l = true.
Proof. induction l; cbn; auto. now rewrite Z.eqb_refl. Qed.

Lemma lookup_sound A (id : A -> Z) ev ops m k v : NoDup (map id ops) ->
  build_map id ev ops [] = Some m -> lookup k m = Some v -> exists o, In o ops /\ k = id o /\ ev o = Some v.
Proof.
  intros ND B L. destruct (in_dec Z.eq_dec k (map id ops)) as [Hin|Hn].
  - apply in_map_iff in Hin as (o & <- & Ho). exists o. split; auto. split; auto.
    now rewrite <- (build_map_in _ _ _ _ _ ND Ho _ _ B).
  - rewrite (build_map_out _ _ _ _ _ Hn _ _ B) in L. discriminate.
Qed.
Lemma by_id_in {O} (id : O -> Z) ops o : NoDup (map id ops) -> In o ops -> by_id id (id o) ops = Some o.
Proof.
  induction ops as [|p ops IH]; intros ND Hin; [contradiction|]. unfold by_id. cbn [find]. fold (by_id id (id o) ops).
  cbn [map] in ND. inversion ND as [|? ? N1 N2 EE]; subst. destruct Hin as [->|Hin].
  - now rewrite Z.eqb_refl.
  - destruct (Z.eqb_spec (id p) (id o)) as [E|E]; auto. exfalso. apply N1. rewrite E. now apply in_map.
Qed.

Lemma rd_id_small o : In o RD_RV32I -> 0 <= rd_id o < 32.
Proof. intro H. destruct o; cbn in *; try lia; intuition discriminate. Qed.
Lemma ram_id_small o : 0 <= ram_id o < 4.
Proof. destruct o; cbn; lia. Qed.
Lemma pc_id_small o : 0 <= pc_id o < 16.
Proof. destruct o; cbn; lia. Qed.

Lemma rd_sel_ok o imm x y pc ram v : In o RD_RV32I -> word imm -> word x -> word y -> word pc -> word ram ->
  rd_eval o imm x y pc ram = Some v -> (o = RLB -> byte 0 ram < 128) -> rd_sel (rd_id o mod 32) imm x y pc ram = v.
Proof.
  intros Hin Wi Wx Wy Wp Wr E HLB. pose proof (rd_id_small o Hin). rewrite Z.mod_small by lia.
  unfold rd_sel. rewrite (by_id_in _ _ _ nodup_rd Hin).
  destruct (rd_enc_some o imm x y pc ram Hin) as [w Hw]. rewrite Hw. unfold rd_enc in Hw.
  pose proof (rd_eval_rv32i _ _ _ _ _ _ _ Wi Wx Wy Wp Wr Hw) as E'.
  destruct o; cbn [rd_eval] in *; try congruence.
  specialize (HLB eq_refl). rewrite byte_0 in HLB.
  injection Hw as <-. injection E as <-. rewrite sext_7 by auto. rewrite byte_0. unfold signed, low.
  pose proof (Z.mod_pos_bound ram (2 ^ 8) ltac:(lia)). rewrite (Z.mod_small (ram mod 2 ^ 8)) by lia.
  change (2 ^ (8 - 1)) with 128. rewrite (proj2 (Z.ltb_lt _ _)) by lia. symmetry. apply to_word_small.
  unfold word. change (2 ^ 8) with 256 in *. lia.
Qed.

Lemma nth_word ws k : Forall is_word ws -> is_word (nth k ws 0).
Proof.
  intro F. destruct (nth_in_or_default k ws 0) as [H| ->]; [|apply is_word_0].
  rewrite Forall_forall in F. auto.
Qed.
Lemma holds_word log m ws k : holds log m ws -> is_word (nth k ws 0).
Proof. intros (_ & _ & _ & F & _). now apply nth_word. Qed.

Lemma pow_nat rb : Z.of_nat (2 ^ rb) = 2 ^ Z.of_nat rb.
Proof. rewrite Nat2Z.inj_pow. reflexivity. Qed.

Lemma track log rb mb v s d d' : shows log rb mb v s -> follows mb s d -> agrees_on d ->
  dcycle RD_RV32I d = Some d' ->
  xdebug rb mb true s (Some d) = Some (Some d') /\
  (x_cycle s + 1 < 4294967296 -> follows mb (xcycle rb mb s) d').
Proof.
  intros S (F1 & F2 & F3 & F4 & F5) (AG1 & AG2) DC.
  pose proof S as (S1 & S2 & S3 & S4 & S5 & S6 & S7 & S8 & S9 & S10 & S11 & S12 & S13 & S14 & S15 & S16 & S17 & S18).
  unfold dcycle in DC.
  destruct (read_instructions d) as [d1|] eqn:E1; [|discriminate].
  destruct (read_registers d1) as [d2|] eqn:E2; [|discriminate].
  destruct (read_ram d2) as [d3|] eqn:E3; [|discriminate].
  destruct (update_registers RD_RV32I d3) as [d4|] eqn:E4; [|discriminate].
  destruct (update_ram d4) as [d5|] eqn:E5; [|discriminate].
  rename DC into E6.
  set (f := xfields rb mb s).
  (* instruction *)
  pose proof E1 as G1. unfold read_instructions in G1.
  rewrite Z.shiftr_div_pow2 in G1 by lia. change (2 ^ 2) with 4 in G1.
  set (k := Z.to_nat (dpc d / 4)) in *.
  destruct (nth_error (imm_rom (drom d)) k) as [v_imm|] eqn:N1; [|discriminate].
  destruct (nth_error (rs1_rom (drom d)) k) as [v_rs1|] eqn:N2; [|discriminate].
  destruct (nth_error (rs2_rom (drom d)) k) as [v_rs2|] eqn:N3; [|discriminate].
  destruct (nth_error (rd_rom (drom d)) k) as [v_rd|] eqn:N4; [|discriminate].
  destruct (nth_error (rdu_rom (drom d)) k) as [v_rdu|] eqn:N5; [|discriminate].
  destruct (nth_error (pcu_rom (drom d)) k) as [v_pcu|] eqn:N6; [|discriminate].
  destruct (nth_error (mu_rom (drom d)) k) as [v_mu|] eqn:N7; [|discriminate].
  injection G1 as G1. subst d1.
  assert (Hpc : f_pc f = dpc d).
  { unfold f, xfields. cbn [f_pc]. rewrite <- F4. unfold x_next. destruct (x_cycle s =? 0) eqn:EC; auto.
    assert (0 <= x_pc s) by apply S14. apply Z.mod_small. split; auto.
    assert (Hk : (k < 2 ^ rb)%nat).
    { apply nth_error_Some_lt in N1. destruct S2 as (L & _). rewrite F1 in L.
      destruct (bit_len_bounds _ _ S3) as (_ & U & _). lia. }
    assert (EQ : dpc d = x_pc s) by (rewrite <- F4; unfold x_next; now rewrite EC).
    unfold k in Hk. rewrite EQ in Hk.
    apply Nat2Z.inj_lt in Hk. rewrite pow_nat, Z2Nat.id in Hk by (apply Z.div_pos; lia).
    rewrite Z.pow_add_r by lia. change (2 ^ 2) with 4. pose proof (Z.div_mod (x_pc s) 4 ltac:(lia)).
    pose proof (Z.mod_pos_bound (x_pc s) 4 ltac:(lia)). lia. }
  assert (Wp : word (f_pc f)).
  { destruct (pc_prepared log rb mb v s S) as (? & _ & P & _). apply is_word_word. eapply prepared_word. exact P. }
  assert (K : Z.to_nat (f_pc f / 4) = k) by (now rewrite Hpc).
  assert (T1 : f_imm f = v_imm) by (change (f_imm f) with (nth (Z.to_nat (f_pc f / 4)) (imm_rom (x_rom s)) 0); rewrite K, F1; now apply nth_error_nth).
  assert (T2 : f_rs1 f = v_rs1) by (change (f_rs1 f) with (nth (Z.to_nat (f_pc f / 4)) (rs1_rom (x_rom s)) 0); rewrite K, F1; now apply nth_error_nth).
  assert (T3 : f_rs2 f = v_rs2) by (change (f_rs2 f) with (nth (Z.to_nat (f_pc f / 4)) (rs2_rom (x_rom s)) 0); rewrite K, F1; now apply nth_error_nth).
  assert (T4 : f_rd f = v_rd) by (change (f_rd f) with (nth (Z.to_nat (f_pc f / 4)) (rd_rom (x_rom s)) 0); rewrite K, F1; now apply nth_error_nth).
  assert (T5 : f_rdu f = v_rdu) by (change (f_rdu f) with (nth (Z.to_nat (f_pc f / 4)) (rdu_rom (x_rom s)) 0); rewrite K, F1; now apply nth_error_nth).
  assert (T6 : f_pcu f = v_pcu) by (change (f_pcu f) with (nth (Z.to_nat (f_pc f / 4)) (pcu_rom (x_rom s)) 0); rewrite K, F1; now apply nth_error_nth).
  assert (T7 : f_mu f = v_mu) by (change (f_mu f) with (nth (Z.to_nat (f_pc f / 4)) (mu_rom (x_rom s)) 0); rewrite K, F1; now apply nth_error_nth).
  assert (W1 : word v_imm) by (rewrite <- T1; apply is_word_word; destruct S1 as (Q & _); exact (holds_word _ _ _ _ Q)).
  assert (W2 : word v_rs1) by (rewrite <- T2; apply is_word_word; destruct S1 as (_ & Q & _); exact (holds_word _ _ _ _ Q)).
  assert (W3 : word v_rs2) by (rewrite <- T3; apply is_word_word; destruct S1 as (_ & _ & Q & _); exact (holds_word _ _ _ _ Q)).
  assert (W4 : word v_rd) by (rewrite <- T4; apply is_word_word; destruct S1 as (_ & _ & _ & Q & _); exact (holds_word _ _ _ _ Q)).
  unfold word in W2, W3, W4.
  (* registers *)
  pose proof E2 as G2. unfold read_registers in G2. cbn [lat with_lat dregs rs1_addr rs2_addr] in G2.
  destruct (nth_error (dregs d) (Z.to_nat v_rs1)) as [x|] eqn:N8; [|discriminate].
  destruct (nth_error (dregs d) (Z.to_nat v_rs2)) as [y|] eqn:N9; [|discriminate].
  injection G2 as G2. subst d2.
  assert (B1 : v_rs1 mod 32 = v_rs1).
  { apply nth_error_Some_lt in N8. rewrite <- F2, S8 in N8. apply Z.mod_small. lia. }
  assert (B2 : v_rs2 mod 32 = v_rs2).
  { apply nth_error_Some_lt in N9. rewrite <- F2, S8 in N9. apply Z.mod_small. lia. }
  assert (Tx : f_x f = x).
  { change (f_x f) with (nth (Z.to_nat (f_rs1 f mod 32)) (x_regs s) 0). rewrite T2, B1, F2. now apply nth_error_nth. }
  assert (Ty : f_y f = y).
  { change (f_y f) with (nth (Z.to_nat (f_rs2 f mod 32)) (x_regs s) 0). rewrite T3, B2, F2. now apply nth_error_nth. }
  assert (Wx : word x) by (rewrite <- Tx; apply is_word_word; exact (holds_word _ _ _ _ S7)).
  assert (Wy : word y) by (rewrite <- Ty; apply is_word_word; exact (holds_word _ _ _ _ S7)).
  (* ram *)
  assert (P2 : 0 < 2 ^ Z.of_nat mb) by (apply Z.pow_pos_nonneg; lia).
  pose proof E3 as G3. unfold read_ram in G3.
  cbn [lat with_lat dregs dram rs1_val imm] in G3. fold (addr_of v_imm x) in G3.
  set (a := addr_of v_imm x) in *.
  assert (Ta : f_addr f = a).
  { change (f_addr f) with (to_word (f_imm f + f_x f - 2 ^ 18)). rewrite T1, Tx. unfold a.
    rewrite (addr_of_ea _ _ v_imm) by (symmetry; apply to_word_small; exact W1). f_equal. lia. }
  unfold ram_index in G3. cbn [with_lat ram_size] in G3. rewrite F5 in G3.
  rewrite (proj2 (Z.eqb_neq _ 0)) in G3 by lia. rewrite Z.shiftr_div_pow2 in G3 by lia. change (2 ^ 2) with 4 in G3.
  assert (Ts : Z.to_nat (a / 4 mod 2 ^ Z.of_nat mb) = f_slot f).
  { change (f_slot f) with (Z.to_nat (f_addr f / 4 mod 2 ^ Z.of_nat mb)). now rewrite Ta. }
  rewrite Ts in G3. destruct (nth_error (dram d) (f_slot f)) as [ram|] eqn:N10; [|discriminate].
  injection G3 as G3. subst d3.
  assert (Tr : f_loaded f = ram).
  { change (f_loaded f) with (nth (f_slot f) (x_ram s) 0). rewrite F3. now apply nth_error_nth. }
  assert (Wr : word ram) by (rewrite <- Tr; apply is_word_word; exact (holds_word _ _ _ _ S9)).
  (* result *)
  pose proof E4 as G4. unfold update_registers in G4.
  cbn [lat with_lat dregs dram dpc rs1_val rs2_val ram_val imm rdu rd_addr] in G4.
  destruct (build_map rd_id (fun o => rd_eval o v_imm x y (dpc d) ram) RD_RV32I []) as [m4|] eqn:M4; [|discriminate].
  destruct (lookup v_rdu m4) as [res|] eqn:M4'; [|discriminate].
  destruct (lookup_sound _ _ _ _ _ _ _ nodup_rd M4 M4') as (o4 & I4 & J4 & R4).
  destruct (set_nth (dregs d) (Z.to_nat v_rd) res) as [r1|] eqn:N11; [|discriminate].
  destruct (set_nth r1 0 0) as [r2|] eqn:N12; [|discriminate].
  injection G4 as G4. subst d4.
  assert (Tres : f_result f = res).
  { unfold f_result. rewrite T5, T1, Tx, Ty, Hpc, Tr, J4.
    apply (rd_sel_ok o4 v_imm x y (dpc d) ram res); auto; [now rewrite <- Hpc|].
    intros ->. rewrite <- F3 in AG1. cbv zeta in AG1.
    rewrite (nth_error_nth _ _ 0 N5), (nth_error_nth _ _ 0 N1), (nth_error_nth _ _ 0 N2), (nth_error_nth _ _ 0 N8) in AG1.
    rewrite J4, F5 in AG1. specialize (AG1 eq_refl).
    replace (to_word (v_imm + x - 2 ^ 18)) with a in AG1.
    - rewrite Ts in AG1. change (nth (f_slot f) (x_ram s) 0) with (f_loaded f) in AG1. now rewrite Tr in AG1.
    - rewrite <- Ta. change (f_addr f) with (to_word (f_imm f + f_x f - 2 ^ 18)). now rewrite T1, Tx. }
  assert (B3 : v_rd mod 32 = v_rd).
  { apply set_nth_lt in N11. rewrite <- F2, S8 in N11. apply Z.mod_small. lia. }
  assert (Tregs : x_regs (xcycle rb mb s) = r2).
  { unfold xcycle. cbn [x_regs]. fold f. rewrite T4, B3, Tres, F2.
    apply set_nth_put in N11, N12. now rewrite N12, N11. }
  (* store *)
  pose proof E5 as G5. unfold update_ram in G5.
  cbn [lat with_lat dregs dram dpc rs1_val rs2_val ram_val imm rdu rd_addr ram_addr mu] in G5.
  destruct (build_map ram_id (fun o => Some (ram_eval o y ram (Z.land a 3))) RAM_LIST []) as [m5|] eqn:M5; [|discriminate].
  destruct (lookup v_mu m5) as [st|] eqn:M5'; [|discriminate].
  destruct (lookup_sound _ _ _ _ _ _ _ nodup_ram M5 M5') as (o5 & I5 & J5 & R5). cbv beta in R5. injection R5 as R5.
  unfold ram_index in G5. cbn [with_lat ram_size] in G5. rewrite F5 in G5.
  rewrite (proj2 (Z.eqb_neq _ 0)) in G5 by lia. rewrite Z.shiftr_div_pow2 in G5 by lia. change (2 ^ 2) with 4 in G5.
  rewrite Ts in G5. destruct (set_nth (dram d) (f_slot f) st) as [dr|] eqn:N13; [|discriminate].
  injection G5 as G5. subst d5.
  assert (Tst : f_stored f = st).
  { unfold f_stored. rewrite T7, Ty, Tr, Ta, J5. pose proof (ram_id_small o5). rewrite (Z.mod_small (ram_id o5)) by lia.
    unfold ram_sel. rewrite (by_id_in _ _ _ nodup_ram (in_ram o5)). now rewrite <- land3. }
  assert (Tram : x_ram (xcycle rb mb s) = dr).
  { unfold xcycle. cbn [x_ram]. fold f. rewrite Tst, F3. apply set_nth_put in N13. now rewrite N13. }
  (* pc *)
  pose proof E6 as G6. unfold update_pc in G6.
  cbn [lat with_lat dregs dram dpc rs1_val rs2_val ram_val imm rdu rd_addr ram_addr mu pcu] in G6.
  destruct (build_map pc_id (fun o => Some (pc_eval o v_imm x y (dpc d))) PC_LIST []) as [m6|] eqn:M6; [|discriminate].
  destruct (lookup v_pcu m6) as [npc|] eqn:M6'; [|discriminate].
  destruct (lookup_sound _ _ _ _ _ _ _ nodup_pc M6 M6') as (o6 & I6 & J6 & R6). cbv beta in R6. injection R6 as R6.
  injection G6 as G6. subst d'.
  assert (Tpc : x_pc (xcycle rb mb s) = npc).
  { unfold xcycle. cbn [x_pc]. fold f. rewrite T6, T1, Tx, Ty, Hpc, J6. pose proof (pc_id_small o6).
    rewrite (Z.mod_small (pc_id o6)) by lia. unfold pc_sel. rewrite (by_id_in _ _ _ nodup_pc (in_pc o6)).
    rewrite <- R6, pc_eval_spec by auto. cbv zeta in AG2.
    rewrite (nth_error_nth _ _ 0 N6), (nth_error_nth _ _ 0 N1), J6 in AG2.
    destruct o6; try reflexivity; rewrite <- AG2 by discriminate; reflexivity. }
  split.
  - unfold xdebug, check. fold f. rewrite E1.
    cbn [lat with_lat dpc imm rs1_addr rs2_addr rd_addr rdu mu pcu].
    rewrite Hpc, T1, T2, T3, T4, T5, T6, T7, !Z.eqb_refl. cbn [andb].
    rewrite E2. cbn [lat with_lat rs1_val rs2_val]. rewrite Tx, Ty, !Z.eqb_refl. cbn [andb].
    rewrite E3. cbn [lat with_lat ram_addr ram_val]. rewrite Ta, Tr, !Z.eqb_refl. cbn [andb].
    rewrite E4. cbn [lat with_lat rd_val dregs]. rewrite Tres, Tregs, Z.eqb_refl, eqb_list_refl. cbn [andb].
    rewrite E5. cbn [lat with_lat ram_val dram]. rewrite Tst, Tram, Z.eqb_refl, eqb_list_refl. cbn [andb].
    rewrite E6. cbn [dpc]. rewrite Tpc, Z.eqb_refl. reflexivity.
  - intro HC. unfold follows. cbn [drom dregs dram dpc ram_size with_lat].
    rewrite Tregs, Tram. unfold x_next. rewrite Tpc, xcycle_counter.
    rewrite to_word_small by (unfold word; lia). rewrite (proj2 (Z.eqb_neq _ 0)) by lia.
    split; [exact F1|]. split; [reflexivity|]. split; [reflexivity|]. split; [reflexivity|]. first [exact F5|reflexivity].
Qed.

Lemma follows_run log rb mb sk on chk es : key_ok log sk on -> Forall env_ok es -> forall v s d dn,
  shows log rb mb v s -> follows mb s d -> agrees (length es) d -> dcycles RD_RV32I (length es) d = Some dn ->
  x_cycle s + Z.of_nat (length es) < 4294967296 ->
  (on = false \/ v_debug v = None \/ v_debug v = Some d) ->
  exists v', ecycles (Ideal log) sk chk es v = Some v' /\ shows log rb mb v' (xcycles rb mb (length es) s) /\
    follows mb (xcycles rb mb (length es) s) dn /\
    v_debug v' = match v_debug v with Some d0 => if on then Some dn else Some d0 | None => None end.
Proof.
  intros K F. induction F as [|e es He F IH]; intros v s d dn S FO AG DC HC HD.
  - cbn [length dcycles] in DC. injection DC as <-. exists v. split; [reflexivity|]. split; [exact S|]. split; [exact FO|].
    destruct HD as [-> |[-> | ->]]; [now destruct (v_debug v)|reflexivity|now destruct on].
  - cbn [length dcycles xcycles agrees] in *. destruct AG as [AG1 AG2].
    destruct (dcycle RD_RV32I d) as [d1|] eqn:E1; [|discriminate].
    destruct (track log rb mb v s d d1 S FO AG1 E1) as [X FO'].
    specialize (FO' ltac:(lia)).
    destruct (cycle_ok log sk on e K He rb mb chk v s S) as (mk & Hmk & E). cbn [ecycles]. rewrite E.
    assert (CC : negb chk || (x_cycle s + 1 <? 4294967296) = true).
    { rewrite (proj2 (Z.ltb_lt _ _)) by lia. apply orb_true_r. }
    assert (C1 : x_cycle (xcycle rb mb s) = x_cycle s + 1).
    { rewrite xcycle_counter. destruct S as (_ & _ & _ & _ & _ & _ & _ & _ & _ & _ & _ & _ & _ & _ & _ & _ & R & _).
      apply to_word_small. unfold word. lia. }
    assert (HX : exists d2, xdebug rb mb on s (v_debug v) = Some d2 /\
      (on = false \/ d2 = None \/ d2 = Some d1) /\
      match d2 with Some d0 => if on then Some dn else Some d0 | None => None end =
      match v_debug v with Some d0 => if on then Some dn else Some d0 | None => None end).
    { destruct HD as [HD|[HD|HD]].
      - subst on. exists (v_debug v). rewrite xdebug_off. auto.
      - exists None. rewrite HD. rewrite xdebug_none. auto.
      - rewrite HD. destruct on; [exists (Some d1); rewrite X|exists (Some d); rewrite xdebug_off]; auto. }
    destruct HX as (d2 & HX1 & HX2 & HX3). rewrite HX1, CC. destruct (Hmk d2) as [S' D'].
    destruct (IH (mk d2) _ d1 dn S' FO' (AG2 _ eq_refl) DC ltac:(lia)) as (v' & V1 & V2 & V3 & V4).
    { now rewrite D'. }
    exists v'. rewrite D', HX3 in V4. auto.
Qed.
