(** The shadow VM follows the machine of [ShadowSpec] (proofs). *)
Require Import ZArith List Bool Lia.
Require Import Verif.Word Verif.Isa Verif.Bits Verif.CodecBits Verif.Codec Verif.DecodeSpec Verif.DecodeFacts Verif.DecodeAccept Verif.TestDecode
  Verif.EvalSpec Verif.EvalPlain Verif.EvalFacts Verif.ListFacts Verif.TestRunFacts Verif.TestStep Verif.IsaSplit
  Verif.DebugVM Verif.DebugSpec Verif.DebugFacts Verif.DebugStep Verif.RunFacts Verif.Bdd Verif.CircFacts Verif.Glwe Verif.Par Verif.EncMem
  Verif.MemSpec Verif.MemFacts Verif.MemOps Verif.Prepare Verif.EncVM Verif.EncSpec Verif.EncFacts Verif.EncCycle Verif.EncTrack Verif.EncLoad Verif.EncRun
  Verif.ExactSpec Verif.ExactFacts Verif.ShadowSpec.
Import ListNotations.
Ltac Zify.zify_post_hook ::= idtac.
Open Scope Z_scope.

(** [dcycle_eq] for any table entry *)
Lemma dcycle_row s im rs1 rs2 rd o1 o2 o3 x y ram k :
  let p := Z.to_nat (Z.shiftr (dpc s) 2) in
  rom_len (length (imm_rom (drom s))) (drom s) -> (p < length (imm_rom (drom s)))%nat ->
  at_row (drom s) p = (im, rs1, rs2, rd, rd_id o1, ram_id o2, pc_id o3) -> In o1 RD_RV32I ->
  nth_error (dregs s) (Z.to_nat rs1) = Some x -> nth_error (dregs s) (Z.to_nat rs2) = Some y ->
  ram_index s (addr_of im x) = Some k -> nth_error (dram s) k = Some ram ->
  (Z.to_nat rd < length (dregs s))%nat ->
  exists v r r' d s',
    rd_eval o1 im x y (dpc s) ram = Some v /\
    set_nth (dregs s) (Z.to_nat rd) v = Some r /\ set_nth r 0 0 = Some r' /\
    set_nth (dram s) k (ram_eval o2 y ram (Z.land (addr_of im x) 3)) = Some d /\
    dcycle RD_RV32I s = Some s' /\ dpc s' = pc_eval o3 im x y (dpc s) /\
    dregs s' = r' /\ dram s' = d /\ drom s' = drom s /\ ram_size s' = ram_size s /\ rom_size s' = rom_size s /\
    rd_val (lat s') = v.
Proof.
  intros p (_ & L2 & L3 & L4 & L5 & L6 & L7) Hp HR Hin Hx Hy Hk Hram Hrd.
  assert (N : forall l z, length l = length (imm_rom (drom s)) -> nth p l 0 = z -> nth_error l p = Some z).
  { intros l z HL <-. apply nth_error_nth'. lia. }
  unfold at_row in HR.
  assert (E1 : nth_error (imm_rom (drom s)) p = Some im) by (apply N; congruence).
  assert (E2 : nth_error (rs1_rom (drom s)) p = Some rs1) by (apply N; congruence).
  assert (E3 : nth_error (rs2_rom (drom s)) p = Some rs2) by (apply N; congruence).
  assert (E4 : nth_error (rd_rom (drom s)) p = Some rd) by (apply N; congruence).
  assert (E5 : nth_error (rdu_rom (drom s)) p = Some (rd_id o1)) by (apply N; congruence).
  assert (E6 : nth_error (mu_rom (drom s)) p = Some (ram_id o2)) by (apply N; congruence).
  assert (E7 : nth_error (pcu_rom (drom s)) p = Some (pc_id o3)) by (apply N; congruence).
  unfold dcycle, read_instructions. fold p. rewrite E1, E2, E3, E4, E5, E6, E7.
  unfold read_registers. cbn [lat with_lat dregs rs1_addr rs2_addr]. rewrite Hx, Hy.
  unfold read_ram. cbn [lat with_lat dregs dram rs1_val imm]. fold (addr_of im x).
  unfold ram_index in *. cbn [with_lat ram_size]. rewrite Hk, Hram.
  unfold update_registers. cbn [lat with_lat dregs dram dpc rs1_val rs2_val ram_val imm rdu rd_addr].
  destruct (rd_map o1 im x y (dpc s) ram Hin) as (m & v & M1 & M2 & M3). rewrite M1, M2.
  destruct (set_nth_some _ (dregs s) (Z.to_nat rd) v Hrd) as [r R1]. rewrite R1.
  pose proof (set_nth_length _ _ _ _ _ R1) as LL1.
  destruct (set_nth_some _ r 0%nat 0 ltac:(lia)) as [r' R2]. rewrite R2.
  unfold update_ram. cbn [lat with_lat dregs dram dpc rs1_val rs2_val ram_val imm rdu rd_addr ram_addr mu].
  destruct (ram_map o2 y ram (Z.land (addr_of im x) 3)) as (m2 & M4 & M5). rewrite M4, M5.
  unfold ram_index. cbn [with_lat ram_size]. rewrite Hk.
  destruct (set_nth_some _ (dram s) k (ram_eval o2 y ram (Z.land (addr_of im x) 3))
    (nth_error_Some_lt _ _ _ _ Hram)) as [d D1].
  rewrite D1. unfold update_pc. cbn [lat with_lat dregs dram dpc rs1_val rs2_val ram_val imm rdu rd_addr pcu].
  destruct (pc_map o3 im x y (dpc s)) as (m3 & M6 & M7). rewrite M6, M7.
  exists v, r, r', d. eexists. repeat split; eauto.
Qed.

(** the shadow VM in state [d] shows machine state [m] *)
Definition sh_shows (d : dvm) (m : sm) : Prop :=
  dpc d = s_pc m /\
  (forall r, reg r -> nth_error (dregs d) (Z.to_nat r) = Some (get (s_rf m) r)) /\
  (forall k, 0 <= k < ram_size d -> nth_error (dram d) (Z.to_nat k) = Some (s_ram m k)).
Definition d_agree (d : dvm) (o : option dvm) (q : option sm) : Prop :=
  match o, q with
  | Some d', Some m' => dvm_ok d' /\ sh_shows d' m' /\ dstatic d d'
  | None, None => True
  | _, _ => False
  end.

Section STEP.
Context (dbg : bool) (ws : list Z) (FW : Forall word ws).

Lemma sh_step_ok d m : dvm_ok d -> fill dbg ws = Some (drom d) -> sh_shows d m ->
  d_agree d (dcycle RD_RV32I d) (sh_step false (ram_size d) ws m).
Proof.
  intros OK HF (Spc & Sreg & Sram). pose proof OK as (HL & HFr & H0 & Hpc & Hram & Hrs & HFm).
  destruct (fill_rows _ _ FW _ HF) as [_ RL].
  pose proof RL as (L1 & L2 & L3 & L4 & L5 & L6 & L7).
  set (p := Z.to_nat (Z.shiftr (dpc d) 2)).
  assert (EP : Z.to_nat (s_pc m / 4) = p) by (unfold p; rewrite Spc, Z.shiftr_div_pow2 by lia; reflexivity).
  unfold sh_step. rewrite EP.
  destruct (nth_error ws p) as [w|] eqn:N.
  2:{ apply nth_error_None in N. unfold dcycle, read_instructions. fold p.
      rewrite (proj2 (nth_error_None (imm_rom (drom d)) p)) by lia. exact I. }
  pose proof (fill_at _ _ _ HF _ _ N) as C.
  pose proof (act_row _ _ _ (nth_error_Forall _ _ _ _ _ FW N) C) as A.
  assert (Hp : (p < length (imm_rom (drom d)))%nat) by (rewrite L1; apply nth_error_Some; congruence).
  rewrite <- L1 in RL.
  (* one step for any row *)
  assert (STEP : forall im rs1 rs2 rd o1 o2 o3,
    at_row (drom d) p = (im, rs1, rs2, rd, rd_id o1, ram_id o2, pc_id o3) -> In o1 RD_RV32I -> word im -> reg rs1 -> reg rs2 -> reg rd ->
    let x := get (s_rf m) rs1 in let y := get (s_rf m) rs2 in let a := addr_of im x in
    let lw := s_ram m (a / 4 mod ram_size d) in
    word x /\ word y /\ word lw /\
    exists v d', rd_spec o1 im x y (dpc d) lw = Some v /\ dcycle RD_RV32I d = Some d' /\ dvm_ok d' /\ dstatic d d' /\
      sh_shows d' {| s_pc := pc_spec o3 im x y (s_pc m); s_rf := put (s_rf m) rd v;
                     s_ram := fun j => if j =? a / 4 mod ram_size d then ram_eval o2 y lw (a mod 4) else s_ram m j |}).
  { intros im rs1 rs2 rd o1 o2 o3 HR Hin Wi G1 G2 G3 x y a lw.
    assert (Wx : word x) by (eapply nth_error_Forall; [exact HFr|apply Sreg; exact G1]).
    assert (Wy : word y) by (eapply nth_error_Forall; [exact HFr|apply Sreg; exact G2]).
    pose proof (Z.mod_pos_bound (a / 4) (ram_size d) Hrs) as KB.
    assert (Hlw : nth_error (dram d) (Z.to_nat (a / 4 mod ram_size d)) = Some lw) by (apply Sram; exact KB).
    assert (Ww : word lw) by (eapply nth_error_Forall; eauto).
    split; [exact Wx|]. split; [exact Wy|]. split; [exact Ww|].
    assert (Hk : ram_index d (addr_of im x) = Some (Z.to_nat (a / 4 mod ram_size d))).
    { unfold ram_index. destruct (Z.eqb_spec (ram_size d) 0); [lia|]. rewrite Z.shiftr_div_pow2 by lia. reflexivity. }
    destruct (dcycle_row d im rs1 rs2 rd o1 o2 o3 x y lw _ RL Hp HR Hin (Sreg _ G1) (Sreg _ G2) Hk Hlw)
      as (v & r & r' & dd & d' & V & R1 & R2 & R3 & DC & P1 & P2 & P3 & P4 & P5 & P6 & _).
    { unfold reg in G3. lia. }
    destruct (rd_spec o1 im x y (dpc d) lw) as [v'|] eqn:V'; [|exfalso; apply (proj1 (rv32i_list_spec o1 im x y (dpc d) lw) Hin V')].
    rewrite (rd_eval_rv32i _ _ _ _ _ _ v' Wi Wx Wy Hpc Ww V') in V. injection V as <-.
    pose proof (word_rd_spec _ _ _ _ _ _ _ Wx Wy Ww V') as Wv.
    destruct (regs_put _ _ _ _ _ _ HL HFr G3 Wv Sreg R1 R2) as (Q1 & Q2 & Q3 & Q4).
    rewrite pc_eval_spec in P1 by auto. rewrite land3 in R3.
    exists v', d'. split; [reflexivity|]. split; [exact DC|]. split; [|split].
    - unfold dvm_ok. rewrite P2, P3, P5, P1. rewrite (set_nth_length _ _ _ _ _ R3). repeat split; auto.
      + apply word_pc_spec.
      + apply word_pc_spec.
      + eapply set_nth_Forall; [exact R3|exact HFm|apply word_ram_eval; auto].
    - unfold dstatic. rewrite P3, (set_nth_length _ _ _ _ _ R3). auto.
    - unfold sh_shows. cbn [s_pc s_rf s_ram]. rewrite P1, P2, P3, P5, Spc. split; [reflexivity|]. split; [exact Q4|].
      intros k Hk'. rewrite (set_nth_nth _ _ _ _ _ _ R3).
      destruct (Nat.eqb_spec (Z.to_nat k) (Z.to_nat (a / 4 mod ram_size d))), (Z.eqb_spec k (a / 4 mod ram_size d)); try lia; [reflexivity|].
      apply Sram. exact Hk'. }
  assert (SHOW : forall d' m1 m2, s_pc m1 = s_pc m2 -> (forall r, reg r -> get (s_rf m1) r = get (s_rf m2) r) ->
     (forall k, 0 <= k < ram_size d' -> s_ram m1 k = s_ram m2 k) -> sh_shows d' m1 -> sh_shows d' m2).
  { intros d' m1 m2 E1 E2 E3 (T1 & T2 & T3). split; [congruence|]. split.
    - intros r Hr. rewrite <- E2 by exact Hr. auto.
    - intros k Hk. rewrite <- E3 by exact Hk. auto. }
  assert (SAME : forall (a lw : Z) f, lw = s_ram m (a / 4 mod ram_size d) -> f lw = lw ->
     forall k, (if k =? a / 4 mod ram_size d then f lw else s_ram m k) = s_ram m k).
  { intros a lw f -> E k. destruct (Z.eqb_spec k (a / 4 mod ram_size d)) as [->|]; auto. }
  destruct (action_of w) as [[i|]|]; [|..|destruct A].
  - destruct A as [L R]. rewrite R in C.
    destruct (legal_regs i L) as (G1 & G2 & G3). pose proof (legal_imm i L) as Wi.
    assert (HE : entry_is (drom d) p i).
    { unfold row_of, at_row in R.
      assert (NN : forall l z, length l = length ws -> nth p l 0 = z -> nth_error l p = Some z).
      { intros l z HLn <-. apply nth_error_nth'. lia. }
      unfold entry_is. revert R. unfold r_rs1, r_rs2, r_rd, o_rd, o_ram, o_pc.
      destruct (regs_of i) as [[z2 z1] z0]. destruct (ops_of i) as [[p1 p2] p3]. cbn [fst snd]. intro R.
      repeat split; apply NN; auto; congruence. }
    destruct (opm i) eqn:OPM.
    { destruct i; try discriminate. rewrite (dcycle_opm _ _ _ _ _ HE). exact I. }
    destruct (STEP (imm_of i) (r_rs1 i) (r_rs2 i) (r_rd i) (o_rd i) (o_ram i) (o_pc i) R (rd_in_list i OPM) Wi G1 G2 G3)
      as (Wx & Wy & Ww & v & d' & V & DC & OK' & ST & SH).
    pose proof ST as (ST1 & ST2 & _).
    set (x := get (s_rf m) (r_rs1 i)) in *. set (y := get (s_rf m) (r_rs2 i)) in *. set (a := addr_of (imm_of i) x) in *.
    set (lw := s_ram m (a / 4 mod ram_size d)) in *.
    rewrite DC. unfold d_agree.
    set (mm := {| m_pc := s_pc m; m_rf := s_rf m; m_mem := fun _ => 0 |}).
    assert (ISA : sees i mm lw -> o_ram i = MNONE ->
       sh_shows d' {| s_pc := m_pc (isa_step i mm); s_rf := m_rf (isa_step i mm); s_ram := s_ram m |}).
    { intros SE NM. eapply SHOW; [| | |exact SH]; cbn [s_pc s_rf s_ram].
      - apply (isa_pc i mm L).
      - destruct (isa_rd i mm lw L OPM Ww SE) as (v2 & V2 & HR2). intros r Hr. rewrite HR2.
        assert (v2 = v); [|now subst]. rewrite Spc in V. change (m_pc mm) with (s_pc m) in V2. change (m_rf mm) with (s_rf m) in V2.
        fold x y in V2. congruence.
      - intros k Hk. apply (SAME a lw (fun z => ram_eval (o_ram i) y z (a mod 4)) eq_refl). rewrite NM. reflexivity. }
    destruct i; cbn [sh_exec andb]; try discriminate OPM;
      try (split; [exact OK'|]; split; [|exact ST]; apply ISA; [exact I|reflexivity]).
    + (* LOAD *) split; [exact OK'|]. split; [|exact ST].
      assert (EA : a / 4 mod ram_size d = word_at (ram_size d) (get (s_rf m) rs1 + off)).
      { unfold word_at, a. rewrite (addr_of_ea _ x off) by reflexivity. reflexivity. }
      eapply SHOW; [| | |exact SH]; cbn [s_pc s_rf s_ram].
      * reflexivity.
      * intros r Hr. assert (EV : v = sh_loaded k (s_ram m (word_at (ram_size d) (get (s_rf m) rs1 + off)))); [|now rewrite EV].
        rewrite <- EA. fold lw. clear - V. destruct k; cbn [o_rd ops_of fst snd ldk_id rd_spec sh_loaded loaded] in *;
          injection V as <-; try reflexivity.
        -- rewrite byte_0. unfold signed, low. rewrite Z.mod_mod by lia. reflexivity.
        -- unfold signed, low. rewrite Z.mod_mod by lia. reflexivity.
        -- apply byte_0.
      * intros j Hj. apply (SAME a lw (fun z => ram_eval (o_ram (LOAD k rd rs1 off)) y z (a mod 4)) eq_refl). reflexivity.
    + (* STORE *) split; [exact OK'|]. split; [|exact ST].
      assert (EA : a / 4 mod ram_size d = word_at (ram_size d) (get (s_rf m) rs1 + off)).
      { unfold word_at, a. rewrite (addr_of_ea _ x off) by reflexivity. reflexivity. }
      assert (E4 : a mod 4 = (get (s_rf m) rs1 + off) mod 4).
      { unfold a. rewrite (addr_of_ea _ x off) by reflexivity. unfold to_word. change (2 ^ 32) with (4 * 2 ^ 30). rewrite Z.rem_mul_r by lia.
        rewrite Z.mul_comm, Z.mod_add by lia. rewrite Z.mod_mod by lia. change (get (s_rf m) rs1) with x.
        replace (x + off - 2 ^ 18) with (x + off + (- 2 ^ 16) * 4) by ring. apply Z.mod_add. lia. }
      eapply SHOW; [| | |exact SH]; cbn [s_pc s_rf s_ram].
      * reflexivity.
      * intros r Hr. apply put0.
      * intros j Hj. rewrite <- EA. destruct (Z.eqb_spec j (a / 4 mod ram_size d)) as [->|]; [|reflexivity].
        rewrite E4. change (o_ram (STORE k rs1 rs2 off)) with (stk_id k). fold lw. rewrite ram_stored by auto. reflexivity.
  - (* SYSTEM *) rewrite A in C.
    destruct (STEP 0 0 0 0 RNONE MNONE PNONE A ltac:(cbn; tauto) ltac:(unfold word; lia) ltac:(unfold reg; lia) ltac:(unfold reg; lia) ltac:(unfold reg; lia))
      as (Wx & Wy & Ww & v & d' & V & DC & OK' & ST & SH).
    rewrite DC. split; [exact OK'|]. split; [|exact ST]. eapply SHOW; [| | |exact SH]; cbn [s_pc s_rf s_ram].
    + reflexivity.
    + intros r Hr. apply put0.
    + intros k Hk. set (a := addr_of 0 (get (s_rf m) 0)).
      apply (SAME a (s_ram m (a / 4 mod ram_size d)) (fun z => ram_eval MNONE (get (s_rf m) 0) z (a mod 4)) eq_refl). reflexivity.
Qed.

Lemma sh_run_ok n : forall d m, dvm_ok d -> fill dbg ws = Some (drom d) -> sh_shows d m ->
  d_agree d (dcycles RD_RV32I n d) (sh_run false (ram_size d) ws n m).
Proof.
  induction n as [|n IH]; intros d m OK HF SH.
  - cbn [dcycles sh_run d_agree]. split; [exact OK|]. split; [exact SH|]. unfold dstatic. auto.
  - cbn [dcycles sh_run]. pose proof (sh_step_ok d m OK HF SH) as A.
    destruct (dcycle RD_RV32I d) as [d1|], (sh_step false (ram_size d) ws m) as [m1|]; cbn [d_agree] in A; try tauto.
    destruct A as (OK1 & SH1 & (T1 & T2 & T3 & T4)). rewrite <- T2.
    assert (HF1 : fill dbg ws = Some (drom d1)) by (rewrite T1; exact HF).
    specialize (IH d1 m1 OK1 HF1 SH1). revert IH.
    destruct (dcycles RD_RV32I n d1) as [d2|], (sh_run false (ram_size d1) ws n m1) as [m2|]; cbn [d_agree]; auto.
    intros (OK2 & SH2 & (U1 & U2 & U3 & U4)). split; [exact OK2|]. split; [exact SH2|]. unfold dstatic.
    repeat split; congruence.
Qed.
End STEP.

(** ** with the debugging key *)
Lemma check_inv d st same r : check true (Some d) st same = Some r -> exists d', st d = Some d' /\ same d' = true /\ r = Some d'.
Proof.
  unfold check. destruct (st d) as [d'|]; [|discriminate]. destruct (same d') eqn:E; [|discriminate].
  intro H. injection H as <-. eauto.
Qed.
Lemma upd_ram_latch d d' : update_ram d = Some d' -> rd_val (lat d') = rd_val (lat d).
Proof.
  unfold update_ram. intro H. inv_some H. injection H as <-. reflexivity.
Qed.
Lemma upd_pc_latch d d' : update_pc d = Some d' -> rd_val (lat d') = rd_val (lat d).
Proof.
  unfold update_pc. intro H. inv_some H. injection H as <-. reflexivity.
Qed.
Lemma xdebug_inv rb mb s d r : xdebug rb mb true s (Some d) = Some r ->
  exists d', r = Some d' /\ dcycle RD_RV32I d = Some d' /\ f_pc (xfields rb mb s) = dpc d /\
    f_result (xfields rb mb s) = rd_val (lat d') /\ x_pc (xcycle rb mb s) = dpc d'.
Proof.
  unfold xdebug. intro H.
  destruct (check true (Some d) _ _) as [r1|] eqn:E1; [|discriminate]. apply check_inv in E1. destruct E1 as (d1 & S1 & C1 & ->).
  destruct (check true (Some d1) _ _) as [r2|] eqn:E2; [|discriminate]. apply check_inv in E2. destruct E2 as (d2 & S2 & C2 & ->).
  destruct (check true (Some d2) _ _) as [r3|] eqn:E3; [|discriminate]. apply check_inv in E3. destruct E3 as (d3 & S3 & C3 & ->).
  destruct (check true (Some d3) _ _) as [r4|] eqn:E4; [|discriminate]. apply check_inv in E4. destruct E4 as (d4 & S4 & C4 & ->).
  destruct (check true (Some d4) _ _) as [r5|] eqn:E5; [|discriminate]. apply check_inv in E5. destruct E5 as (d5 & S5 & C5 & ->).
  apply check_inv in H. destruct H as (d6 & S6 & C6 & ->). exists d6. split; [reflexivity|].
  split; [unfold dcycle; rewrite S1, S2, S3, S4, S5; exact S6|].
  split.
  { repeat (apply andb_true_iff in C1; destruct C1 as [C1 _]). apply Z.eqb_eq in C1. rewrite C1.
    unfold read_instructions in S1. inv_some S1. injection S1 as <-. reflexivity. }
  apply andb_true_iff in C4. destruct C4 as [C4 _]. apply Z.eqb_eq in C4, C6. split; [|exact C6].
  rewrite (upd_pc_latch _ _ S6), (upd_ram_latch _ _ S5). exact C4.
Qed.

Lemma signed20_far off : - 2 ^ 20 <= off < 2 ^ 20 -> ~ (- 2 ^ 19 <= off < 2 ^ 19) -> forall pc, to_word (pc + signed 20 off) <> to_word (pc + off).
Proof.
  intros H N pc E. unfold signed, low in E. unfold to_word in E.
  pose proof (Z.mod_pos_bound off (2 ^ 20) ltac:(lia)) as B.
  assert (D : off mod 2 ^ 20 = off \/ off mod 2 ^ 20 = off + 2 ^ 20).
  { destruct (Z_lt_dec off 0).
    - right. rewrite <- (Z.mod_add off 1) by lia. apply Z.mod_small. lia.
    - left. apply Z.mod_small. lia. }
  assert (S : exists t, signed 20 off = off + t /\ (t = 2 ^ 20 \/ t = - 2 ^ 20)).
  { unfold signed, low. destruct (Z.ltb_spec (off mod 2 ^ 20) (2 ^ (20 - 1))); destruct D as [D|D]; rewrite D in *;
      [lia|exists (2 ^ 20); lia|exists (- 2 ^ 20); lia|lia]. }
  destruct S as (t & S & T). fold (low 20 off) in E. fold (signed 20 off) in E. rewrite S in E.
  assert (Q : t mod 2 ^ 32 = 0).
  { replace t with (pc + (off + t) - (pc + off)) by ring. rewrite Zminus_mod, E, Z.sub_diag. reflexivity. }
  destruct T as [-> | ->]; vm_compute in Q; discriminate.
Qed.

Lemma in_rlb : In RLB RD_RV32I. Proof. cbn; tauto. Qed.
Section STRICT.
Context (dbg : bool) (ws : list Z) (FW : Forall word ws) (log rb mb : nat).

Lemma strict_ok v s d m : shows log rb mb v s -> follows mb s d -> dvm_ok d -> fill dbg ws = Some (drom d) -> sh_shows d m ->
  match sh_step true (ram_size d) ws m with
  | Some m' => exists d', xdebug rb mb true s (Some d) = Some (Some d') /\ dcycle RD_RV32I d = Some d' /\ dvm_ok d' /\ sh_shows d' m' /\ dstatic d d' /\
      (x_cycle s + 1 < 4294967296 -> follows mb (xcycle rb mb s) d')
  | None => xdebug rb mb true s (Some d) = None
  end.
Proof.
  intros S FO OK HF SH. pose proof (sh_step_ok dbg ws FW d m OK HF SH) as A.
  assert (GOOD : agrees_on d -> sh_step true (ram_size d) ws m = sh_step false (ram_size d) ws m ->
    match sh_step true (ram_size d) ws m with
    | Some m' => exists d', xdebug rb mb true s (Some d) = Some (Some d') /\ dcycle RD_RV32I d = Some d' /\ dvm_ok d' /\ sh_shows d' m' /\ dstatic d d' /\
        (x_cycle s + 1 < 4294967296 -> follows mb (xcycle rb mb s) d')
    | None => xdebug rb mb true s (Some d) = None
    end).
  { intros AG E. rewrite E. destruct (dcycle RD_RV32I d) as [d'|] eqn:DC, (sh_step false (ram_size d) ws m) as [m'|]; cbn [d_agree] in A; try tauto.
    - destruct (track log rb mb v s d d' S FO AG DC) as [X FO']. exists d'. destruct A as (A1 & A2 & A3). auto 8.
    - destruct (xdebug rb mb true s (Some d)) as [r|] eqn:X; [|reflexivity]. apply xdebug_inv in X. destruct X as (d' & _ & DC' & _). congruence. }
  assert (BAD : dcycle RD_RV32I d = None -> xdebug rb mb true s (Some d) = None).
  { intro DC. destruct (xdebug rb mb true s (Some d)) as [r|] eqn:X; [|reflexivity]. apply xdebug_inv in X. destruct X as (d' & _ & DC' & _). congruence. }
  pose proof FO as (F1 & F2 & F3 & F4 & F5). pose proof SH as (Spc & Sreg & Sram). pose proof OK as (HL & HFr & H0 & Hpc & Hram & Hrs & HFm).
  destruct (fill_rows _ _ FW _ HF) as [_ RL]. pose proof RL as (L1 & _).
  set (p := Z.to_nat (dpc d / 4)).
  assert (EP : Z.to_nat (s_pc m / 4) = p) by (unfold p; rewrite Spc; reflexivity).
  assert (EP2 : Z.to_nat (Z.shiftr (dpc d) 2) = p) by (unfold p; rewrite Z.shiftr_div_pow2 by lia; reflexivity).
  destruct (nth_error ws p) as [w|] eqn:N.
  2:{ assert (E : sh_step true (ram_size d) ws m = None) by (unfold sh_step; rewrite EP, N; reflexivity).
      rewrite E. apply BAD. unfold sh_step in A. rewrite EP, N in A. destruct (dcycle RD_RV32I d); [destruct A|reflexivity]. }
  pose proof (fill_at _ _ _ HF _ _ N) as C.
  pose proof (act_row _ _ _ (nth_error_Forall _ _ _ _ _ FW N) C) as AC.
  assert (ST : forall b, sh_step b (ram_size d) ws m = match action_of w with
       | Some (Exec i) => sh_exec b (ram_size d) i m
       | Some Skip => Some {| s_pc := to_word (s_pc m + 4); s_rf := s_rf m; s_ram := s_ram m |} | None => None end).
  { intro b. unfold sh_step. rewrite EP, N. reflexivity. }
  destruct (action_of w) as [[i|]|]; [| |destruct AC].
  2:{ apply GOOD; [|now rewrite !ST]. unfold agrees_on. fold p. unfold at_row in AC. cbv zeta.
      assert (R5 : nth p (rdu_rom (drom d)) 0 = rd_id RNONE) by congruence.
      assert (R7 : nth p (pcu_rom (drom d)) 0 = pc_id PNONE) by congruence.
      rewrite R5, R7. split; [discriminate|congruence]. }
  destruct AC as [L R].
  assert (R1 : nth p (imm_rom (drom d)) 0 = imm_of i) by (unfold at_row, row_of in R; congruence).
  assert (R2 : nth p (rs1_rom (drom d)) 0 = r_rs1 i) by (unfold at_row, row_of in R; congruence).
  assert (R5 : nth p (rdu_rom (drom d)) 0 = rd_id (o_rd i)) by (unfold at_row, row_of in R; congruence).
  assert (R7 : nth p (pcu_rom (drom d)) 0 = pc_id (o_pc i)) by (unfold at_row, row_of in R; congruence).
  destruct (legal_regs i L) as (G1 & G2 & G3). pose proof (legal_imm i L) as Wi.
  assert (EX : nth (Z.to_nat (r_rs1 i)) (dregs d) 0 = get (s_rf m) (r_rs1 i)) by (apply nth_error_nth; apply Sreg; exact G1).
  assert (AG : agrees_on d <-> (o_rd i = RLB -> byte 0 (nth (Z.to_nat (to_word (imm_of i + get (s_rf m) (r_rs1 i) - 2 ^ 18) / 4 mod ram_size d)) (dram d) 0) < 128) /\
                           (o_pc i <> PNONE -> imm_of i = to_word (signed 20 (imm_of i)))).
  { unfold agrees_on. fold p. cbv zeta. rewrite R1, R2, R5, R7, EX. split; intros [Q1 Q2]; split; intro Q; try (apply Q1); try (apply Q2); try congruence.
    - intro E. apply Q. destruct (o_pc i); cbn in E; congruence.
    - destruct (o_rd i); cbn in Q; congruence. }
  assert (P20 : forall off, - 2 ^ 19 <= off < 2 ^ 19 -> to_word (signed 20 (to_word off)) = to_word off).
  { intros off H. rewrite signed20_word, signed20_id by exact H. reflexivity. }
  destruct i; try (apply GOOD; [apply AG; split; [discriminate|intro Q; try (exfalso; apply Q; reflexivity)]|now rewrite !ST]).
  - (* JAL *)
    cbn in L. rewrite ST. cbn [sh_exec andb].
    destruct (Z_le_dec (- 2 ^ 19) off) as [J1|J1], (Z_lt_dec off (2 ^ 19)) as [J2|J2].
    1:{ replace (negb ((- 2 ^ 19 <=? off) && (off <? 2 ^ 19))) with false by lia.
        assert (AGd : agrees_on d) by (apply AG; split; [discriminate|]; intros _; cbn [imm_of]; now rewrite P20).
        specialize (GOOD AGd). rewrite !ST in GOOD. cbn [sh_exec andb] in GOOD.
        replace (negb ((- 2 ^ 19 <=? off) && (off <? 2 ^ 19))) with false in GOOD by lia. apply GOOD. reflexivity. }
    all: replace (negb ((- 2 ^ 19 <=? off) && (off <? 2 ^ 19))) with true by lia.
    all: destruct (xdebug rb mb true s (Some d)) as [r|] eqn:X; [exfalso|reflexivity].
    all: apply xdebug_inv in X; destruct X as (d' & _ & DC & FP & _ & XP).
    all: rewrite DC, ST in A; cbn [sh_exec andb d_agree] in A; destruct A as (_ & (PC' & _) & _); cbn [s_pc isa_step m_pc] in PC'.
    all: assert (XQ : x_pc (xcycle rb mb s) = to_word (dpc d + signed 20 off)).
    all: try (unfold xcycle; cbn [x_pc]; set (f := xfields rb mb s) in *;
      assert (T7 : f_pcu f = pc_id PJAL) by (change (f_pcu f) with (nth (Z.to_nat (f_pc f / 4)) (pcu_rom (x_rom s)) 0); rewrite FP, F1; exact R7);
      assert (T1 : f_imm f = to_word off) by (change (f_imm f) with (nth (Z.to_nat (f_pc f / 4)) (imm_rom (x_rom s)) 0); rewrite FP, F1; exact R1);
      rewrite T7, T1, pc_sel_id; cbn [pc_spec]; rewrite signed20_word;
      pose proof (signed_range 20 off ltac:(lia)); rewrite s32_to_word by lia; rewrite FP; reflexivity).
    all: rewrite XP, PC', <- Spc in XQ; apply (signed20_far off ltac:(lia) ltac:(lia) (dpc d)); congruence.
  - (* JALR *) cbn [imm_of]. cbn in L. rewrite P20 by lia. reflexivity.
  - (* BRANCH *) cbn [imm_of]. cbn in L. rewrite P20 by lia. reflexivity.
  - (* LOAD *)
    set (wd := s_ram m (word_at (ram_size d) (get (s_rf m) rs1 + off))).
    pose proof (Z.mod_pos_bound (to_word (get (s_rf m) rs1 + off - 2 ^ 18) / 4) (ram_size d) Hrs) as KB.
    assert (EA : to_word (to_word off + get (s_rf m) rs1 - 2 ^ 18) = to_word (get (s_rf m) rs1 + off - 2 ^ 18)).
    { unfold to_word. replace (off mod 2 ^ 32 + get (s_rf m) rs1 - 2 ^ 18) with (off mod 2 ^ 32 + (get (s_rf m) rs1 - 2 ^ 18)) by ring.
      rewrite Zplus_mod_idemp_l. f_equal. ring. }
    assert (EW : nth (Z.to_nat (to_word (imm_of (LOAD k rd rs1 off) + get (s_rf m) (r_rs1 (LOAD k rd rs1 off)) - 2 ^ 18) / 4 mod ram_size d)) (dram d) 0 = wd).
    { apply nth_error_nth. cbn [imm_of]. change (r_rs1 (LOAD k rd rs1 off)) with rs1. rewrite EA. apply Sram. exact KB. }
    rewrite EW in AG. rewrite byte_0 in AG.
    assert (CA : (match k with LB => 128 <=? wd mod 2 ^ 8 | _ => false end = false /\ agrees_on d) \/ (k = LB /\ 128 <= wd mod 2 ^ 8)).
    { destruct k; try (left; split; [reflexivity|]; apply AG; split; [discriminate|intro Q; exfalso; apply Q; reflexivity]).
      destruct (Z.leb_spec 128 (wd mod 2 ^ 8)); [right; auto|left]. split; [reflexivity|]. apply AG. split; [intros _; assumption|intro Q; exfalso; apply Q; reflexivity]. }
    destruct CA as [[CA AGd]|[-> CA]].
    + apply GOOD; [exact AGd|]. rewrite !ST. cbn [sh_exec andb]. fold wd. rewrite CA. reflexivity.
    + rewrite ST. cbn [sh_exec andb]. fold wd. rewrite (proj2 (Z.leb_le _ _) CA).
      destruct (xdebug rb mb true s (Some d)) as [r|] eqn:X; [exfalso|reflexivity].
      apply xdebug_inv in X. destruct X as (d' & _ & DC & FP & FR & _).
      set (f := xfields rb mb s) in *.
      assert (T5 : f_rdu f = rd_id RLB) by (change (f_rdu f) with (nth (Z.to_nat (f_pc f / 4)) (rdu_rom (x_rom s)) 0); rewrite FP, F1; exact R5).
      assert (T1 : f_imm f = to_word off) by (change (f_imm f) with (nth (Z.to_nat (f_pc f / 4)) (imm_rom (x_rom s)) 0); rewrite FP, F1; exact R1).
      assert (T2 : f_rs1 f = rs1) by (change (f_rs1 f) with (nth (Z.to_nat (f_pc f / 4)) (rs1_rom (x_rom s)) 0); rewrite FP, F1; exact R2).
      assert (TX : f_x f = get (s_rf m) rs1).
      { change (f_x f) with (nth (Z.to_nat (f_rs1 f mod 32)) (x_regs s) 0). rewrite T2, Z.mod_small by exact G1. rewrite F2. exact EX. }
      assert (TL : f_loaded f = wd).
      { change (f_loaded f) with (nth (Z.to_nat (to_word (f_imm f + f_x f - 2 ^ 18) / 4 mod 2 ^ Z.of_nat mb)) (x_ram s) 0).
        rewrite T1, TX, EA, F3, <- F5. apply nth_error_nth. apply Sram. exact KB. }
      assert (FRV : f_result f = wd mod 2 ^ 8).
      { unfold f_result. rewrite T5, rd_sel_id by exact in_rlb. cbn [rd_enc rd_spec]. rewrite TL. apply byte_0. }
      assert (Ww : word wd) by (eapply nth_error_Forall; [exact HFm|apply Sram; exact KB]).
      assert (Hp : (p < length (imm_rom (drom d)))%nat) by (rewrite L1; apply nth_error_Some; congruence).
      rewrite <- L1 in RL.
      assert (Hk : ram_index d (addr_of (imm_of (LOAD LB rd rs1 off)) (get (s_rf m) rs1)) = Some (Z.to_nat (to_word (get (s_rf m) rs1 + off - 2 ^ 18) / 4 mod ram_size d))).
      { unfold ram_index. destruct (Z.eqb_spec (ram_size d) 0); [lia|]. rewrite Z.shiftr_div_pow2 by lia.
        rewrite (addr_of_ea _ _ off) by reflexivity. reflexivity. }
      assert (Hr : at_row (drom d) (Z.to_nat (Z.shiftr (dpc d) 2)) = row_of (LOAD LB rd rs1 off)) by (rewrite EP2; exact R).
      rewrite <- EP2 in Hp.
      destruct (dcycle_row d (imm_of (LOAD LB rd rs1 off)) rs1 0 rd RLB MNONE PNONE (get (s_rf m) rs1) 0 wd _ RL Hp Hr in_rlb
        (Sreg _ G1) H0 Hk (Sram _ KB)) as (v1 & r1 & r2 & dd & d2 & V & _ & _ & _ & DC2 & _ & _ & _ & _ & _ & _ & LV).
      { unfold reg in G3. change (r_rd (LOAD LB rd rs1 off)) with rd in G3. lia. }
      rewrite DC in DC2. assert (d2 = d') by congruence. subst d2.
      cbn [rd_eval] in V. rewrite sext_7 in V by exact Ww. rewrite LV, FRV in FR.
      assert (HV : v1 = to_word (signed 8 wd)).
      { injection V as <-. unfold signed, low. now rewrite ?byte_0, ?Z.mod_mod by lia. }
      rewrite HV in FR. unfold signed, low in FR. change (2 ^ (8 - 1)) with 128 in FR.
      pose proof (Z.mod_pos_bound wd (2 ^ 8) ltac:(lia)). destruct (Z.ltb_spec (wd mod 2 ^ 8) 128); [lia|].
      unfold to_word in FR. rewrite <- (Z.mod_add _ 1) in FR by lia. rewrite Z.mod_small in FR by lia. lia.
  - apply GOOD; [apply AG; split; [destruct o; discriminate|intro Q; exfalso; apply Q; reflexivity]|now rewrite !ST].
  - apply GOOD; [apply AG; split; [destruct o; discriminate|intro Q; exfalso; apply Q; reflexivity]|now rewrite !ST].
  - apply GOOD; [apply AG; split; [destruct o; discriminate|intro Q; exfalso; apply Q; reflexivity]|now rewrite !ST].
  - (* OPM *) rewrite ST. cbn [sh_exec]. apply BAD. rewrite ST in A. cbn [sh_exec] in A. destruct (dcycle RD_RV32I d); [destruct A|reflexivity].
Qed.
End STRICT.
