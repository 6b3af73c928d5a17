(** Cycles of the VM with noise: compare EncCycle.v. *)
Require Import ZArith List Bool Lia.
Require Import Verif.Word Verif.Isa Verif.Bits Verif.Codec Verif.EvalSpec Verif.EvalPlain Verif.EvalFacts Verif.ListFacts
  Verif.DebugVM Verif.DebugFacts Verif.DebugStep Verif.Bdd Verif.BddFacts Verif.CircFacts Verif.Glwe Verif.GlweFacts Verif.Par Verif.ParFacts Verif.EncMem
  Verif.MemSpec Verif.MemFacts Verif.MemOps Verif.MemClient Verif.Prepare Verif.PrepFacts Verif.EncEval Verif.EncVM Verif.EncSpec
  Verif.EncFacts Verif.EncCycle Verif.Noise Verif.NoiseFacts Verif.NoiseMem Verif.NoiseEval.
Import ListNotations.
Ltac Zify.zify_post_hook ::= idtac.
Open Scope Z_scope.

Section Impl.
Context {C P F : Type}.
Variables (log : nat) (t : torus) (z : noise).
Variables (phase : C -> poly) (fphase : F -> list Z) (pbit : P -> bool) (N : alg C P F).
Hypothesis HN : noisy log t z phase fphase pbit N.
Notation tau := (t_tau t).
Notation nenc := (nenc t fphase).
Notation nprepared := (nprepared pbit).
Notation nholds := (nholds log t phase).
Notation nshows := (nshows log t phase fphase pbit).

Section Cycle.
Variable e : env.
Hypothesis Henv : env_ok e.

Lemma n_shadow d st (same : secret C P F -> dvm -> bool) : shadow None d st same = Some d.
Proof. reflexivity. Qed.

Lemma n_read_one b i m ws addr off w k : nholds b m ws -> (i < 15)%nat -> i <> 7%nat -> i <> 10%nat ->
  nprepared addr w -> m_bits m = k -> (off + k <= 32)%nat ->
  exists m' c, mem_read_stateless N (n_threads e) (sched e i) m addr off = Some (m', c) /\ nholds b m' ws /\
    nenc (b + e_read log z k) c (nth (Z.to_nat (w / 2 ^ Z.of_nat off mod 2 ^ Z.of_nat k)) ws 0).
Proof.
  intros H H1 H2 H3 Pr <- L. eapply (n_stateless log t z phase fphase pbit N HN); eauto; [now apply (env_mem e Henv)|].
  now apply addr_ok.
Qed.

Lemma n_prepare_fresh n order bits counts : n = length counts -> length bits = length counts ->
  forallb (fun c => c <=? 32)%nat counts = true -> par_order (n_threads e) (list_sum counts) order ->
  prepare_multiple N (n_threads e) order (fresh N n) bits counts =
  Some (map (fun wc => prepare_custom N (fst wc) (snd wc)) (combine bits counts)).
Proof.
  intros -> L FF Pr. destruct (prepare_multiple_ok N (n_threads e) order (fresh N (length counts)) bits counts) as (out & E & LO & HO); auto.
  - unfold fresh. apply repeat_length.
  - intros r Hr. apply repeat_spec in Hr. subst r. reflexivity.
  - rewrite E. f_equal. apply nth_error_ext. intro i. rewrite nth_error_map.
    destruct (le_lt_dec (length counts) i) as [G|G].
    + rewrite (proj2 (nth_error_None out i)) by lia.
      rewrite (proj2 (nth_error_None (combine bits counts) i)); auto. rewrite combine_length. lia.
    + destruct (nth_error_lt _ counts i G) as [c Hc]. destruct (nth_error_lt _ bits i) as [w Hw]; [lia|].
      rewrite (nth_error_combine _ _ bits counts i), Hw, Hc. cbn. now apply HO.
Qed.

Lemma n_components b d er r pcp pc rb n :
  nrom log t phase b er r -> rom_len n r -> bit_len_pred (Z.of_nat n) = Some rb -> (rb <= 30)%nat ->
  nprepared pcp pc -> pc / 4 < 2 ^ Z.of_nat rb -> b + e_read log z rb <= tau ->
  let k := Z.to_nat (pc / 4) in
  let g t := nth k t 0 in
  exists er' p, read_components N None e d er pcp = Some (er', d, p) /\ nrom log t phase b er' r /\
    nprepared (p_rdu p) (g (rdu_rom r) mod 32) /\ nprepared (p_mu p) (g (mu_rom r) mod 4) /\
    nprepared (p_pcu p) (g (pcu_rom r) mod 16) /\ nprepared (p_imm p) (g (imm_rom r)) /\
    nprepared (p_rs1 p) (g (rs1_rom r) mod 32) /\ nprepared (p_rs2 p) (g (rs2_rom r) mod 32) /\
    nprepared (p_rd p) (g (rd_rom r) mod 32).
Proof.
  intros (R1 & R2 & R3 & R4 & R5 & R6 & R7) (L1 & L2 & L3 & L4 & L5 & L6 & L7) B Hrb Pr Hpc BB.
  pose proof (nprepared_word _ _ _ Pr) as [Wp _]. assert (H0 : 0 <= pc / 4) by (apply Z.div_pos; lia).
  cbv zeta.
  assert (Ek : Z.to_nat (pc / 2 ^ Z.of_nat 2 mod 2 ^ Z.of_nat rb) = Z.to_nat (pc / 4)).
  { change (2 ^ Z.of_nat 2) with 4. rewrite Z.mod_small; auto. }
  assert (RD : forall i m ws, nholds b m ws -> length ws = n -> (i < 7)%nat ->
    exists m' c, mem_read_stateless N (n_threads e) (sched e i) m pcp 2 = Some (m', c) /\ nholds b m' ws /\
      nenc (b + e_read log z rb) c (nth (Z.to_nat (pc / 4)) ws 0)).
  { intros i m ws Hm Hl Hi. rewrite <- Ek. apply n_read_one; auto; try lia. eapply nholds_bits; eauto. now rewrite Hl. }
  destruct (RD 0%nat _ _ R1 L1 ltac:(lia)) as (m_imm & c_imm & E1 & M1 & C1).
  destruct (RD 1%nat _ _ R5 L5 ltac:(lia)) as (m_rdu & c_rdu & E2 & M2 & C2).
  destruct (RD 2%nat _ _ R6 L6 ltac:(lia)) as (m_mu & c_mu & E3 & M3 & C3).
  destruct (RD 3%nat _ _ R7 L7 ltac:(lia)) as (m_pcu & c_pcu & E4 & M4 & C4).
  destruct (RD 4%nat _ _ R2 L2 ltac:(lia)) as (m_rs1 & c_rs1 & E5 & M5 & C5).
  destruct (RD 5%nat _ _ R3 L3 ltac:(lia)) as (m_rs2 & c_rs2 & E6 & M6 & C6).
  destruct (RD 6%nat _ _ R4 L4 ltac:(lia)) as (m_rd & c_rd & E7 & M7 & C7).
  exists (ERoms m_imm m_rs1 m_rs2 m_rd m_rdu m_mu m_pcu),
    (Parts (prepare_custom N c_rdu 5) (prepare_custom N c_mu 2) (prepare_custom N c_pcu 4) (prepare_custom N c_imm 32)
     (prepare_custom N c_rs1 5) (prepare_custom N c_rs2 5) (prepare_custom N c_rd 5)).
  split; [|split].
  - unfold read_components. rewrite E1, E2, E3, E4, E5, E6, E7.
    change (bit_len_pred (Z.of_nat (length RD_RV32I))) with (Some 5%nat).
    change (bit_len_pred (Z.of_nat (length RAM_LIST))) with (Some 2%nat). cbv beta iota.
    rewrite (n_prepare_fresh 7 (sched e 7) [c_rdu; c_mu; c_pcu; c_imm; c_rs1; c_rs2; c_rd] [5;2;4;32;5;5;5]%nat eq_refl eq_refl eq_refl)
      by apply Henv.
    cbn [map combine fst snd]. rewrite n_shadow. reflexivity.
  - unfold nrom. cbn [e_imm e_rs1 e_rs2 e_rd e_rdu e_mu e_pcu]. tauto.
  - cbn [p_rdu p_mu p_pcu p_imm p_rs1 p_rs2 p_rd].
    split; [apply (n_prepare _ _ _ _ _ _ _ HN _ _ _ 5 C2 BB)|]. split; [apply (n_prepare _ _ _ _ _ _ _ HN _ _ _ 2 C3 BB)|].
    split; [apply (n_prepare _ _ _ _ _ _ _ HN _ _ _ 4 C4 BB)|]. split; [apply (n_prepare_all _ _ _ _ _ _ _ HN _ _ _ C1 BB)|].
    split; [apply (n_prepare _ _ _ _ _ _ _ HN _ _ _ 5 C5 BB)|]. split; [apply (n_prepare _ _ _ _ _ _ _ HN _ _ _ 5 C6 BB)|].
    apply (n_prepare _ _ _ _ _ _ _ HN _ _ _ 5 C7 BB).
Qed.

Lemma n_read_regs b d m ws p r1 r2 : nholds b m ws -> length ws = 32%nat ->
  nprepared (p_rs1 p) (r1 mod 32) -> nprepared (p_rs2 p) (r2 mod 32) -> b + e_read log z 5 <= tau ->
  let x := nth (Z.to_nat (r1 mod 32)) ws 0 in let y := nth (Z.to_nat (r2 mod 32)) ws 0 in
  exists m' c q1 q2, read_regs N None e d m p = Some (m', d, c, q1, q2) /\ nholds b m' ws /\
    nenc (b + e_read log z 5) c y /\ nprepared q1 x /\ nprepared q2 y.
Proof.
  intros H L P1 P2 BB x y.
  assert (B : m_bits m = 5%nat) by (eapply nholds_bits; eauto; now rewrite L).
  destruct (n_read_one b 8 m ws (p_rs1 p) 0 _ 5 H ltac:(lia) ltac:(lia) ltac:(lia) P1 B ltac:(lia)) as (m1 & c1 & E1 & M1 & C1).
  assert (B1 : m_bits m1 = 5%nat) by (eapply nholds_bits; eauto; now rewrite L).
  destruct (n_read_one b 9 m1 ws (p_rs2 p) 0 _ 5 M1 ltac:(lia) ltac:(lia) ltac:(lia) P2 B1 ltac:(lia)) as (m2 & c2 & E2 & M2 & C2).
  change (2 ^ Z.of_nat 0) with 1 in C1, C2. change (2 ^ Z.of_nat 5) with 32 in C1, C2.
  rewrite Z.div_1_r, mod_mod_id in C1, C2 by lia. fold x in C1. fold y in C2.
  exists m2, c2, (prepare_custom N c1 32), (prepare_custom N c2 32).
  split; [|split; [exact M2|split; [exact C2|split; eapply (n_prepare_all _ _ _ _ _ _ _ HN); eauto]]].
  unfold read_regs. rewrite E1, E2. cbv beta iota.
  rewrite (n_prepare_fresh 2 (sched e 10) [c1; c2] [32; 32]%nat eq_refl eq_refl eq_refl) by apply Henv.
  cbn [map combine fst snd]. now rewrite n_shadow.
Qed.

Lemma n_read_ram b d m ws mb p qx im x : nholds b m ws -> length ws = (2 ^ mb)%nat -> (mb <= 30)%nat ->
  nprepared (p_imm p) im -> nprepared qx x -> n_fresh z <= tau ->
  let addr := to_word (im + x - 2 ^ 18) in
  let slot := Z.to_nat (addr / 4 mod 2 ^ Z.of_nat mb) in
  exists m1 c pa, read_ram_enc N None e d m mb p qx = Some (m1, d, c, pa) /\
    nenc (b + e_move log z mb + n_pack z) c (nth slot ws 0) /\ nprepared pa (addr mod 2 ^ Z.of_nat (mb + 2)) /\
    forall w v, nenc (n_fresh z) w v ->
      exists m2, mem_read_statefull_rev N (n_threads e) (sched e 14) m1 w pa 2 = Some m2 /\
        nholds (b + grow_ram log z mb) m2 (put_word ws slot v).
Proof.
  intros H L Hmb Pi Pq BB addr slot.
  pose proof (nprepared_word _ _ _ Pi) as Wi. pose proof (nprepared_word _ _ _ Pq) as Wx.
  apply is_word_word in Wi, Wx.
  assert (Wa : is_word addr) by (apply is_word_word, to_word_range).
  assert (Cc : nenc (n_fresh z) (ram_offset_enc N (p_imm p) qx) addr).
  { unfold ram_offset_enc. eapply (n_circ _ _ _ _ _ _ _ HN); eauto. now apply ram_offset_ok. }
  assert (Bl : bit_len_pred (Z.of_nat (length ws)) = Some mb).
  { rewrite L. apply bit_len_pow. }
  pose proof (nholds_bits _ _ _ _ _ _ _ H Bl) as B.
  pose proof (n_prepare _ _ _ _ _ _ _ HN _ _ _ (mb + 2) Cc BB) as PP.
  destruct (mod_split addr mb ltac:(apply Wa)) as [MS _].
  pose proof (addr_ok _ _ 2 mb PP ltac:(lia)) as A. change (2 ^ Z.of_nat 2) with 4 in A. rewrite MS in A. fold slot in A.
  assert (Hs : (slot < length ws)%nat).
  { rewrite L. apply A. }
  apply (addresses_bits _ _ _ _ _ (eq_sym B)) in A.
  destruct (n_statefull _ _ _ _ _ _ _ HN (n_threads e) (sched e 11) b m ws _ 2 slot H Hs (env_mem e Henv 11 ltac:(lia) ltac:(lia) ltac:(lia)) A)
    as (m1 & c & E & Hc & Hrev).
  rewrite B in Hc.
  exists m1, c, (prepare_custom N (ram_offset_enc N (p_imm p) qx) (mb + 2)).
  split; [|split; [exact Hc|split; [exact PP|]]].
  - unfold read_ram_enc, prepare_low. rewrite (proj2 (Nat.leb_le _ _)) by lia. rewrite E. now rewrite n_shadow.
  - intros w v Hw. destruct (Hrev (n_threads e) (sched e 14) (n_fresh z) w v) as (m2 & E2 & H2); auto.
    + apply (env_mem e Henv); lia.
    + pose proof (y_pos _ _ _ _ _ _ _ HN) as ZP. unfold noise_pos in ZP. tauto.
    + exists m2. split; auto. unfold grow_ram, e_put. rewrite B in H2. now rewrite Z.add_assoc.
Qed.

Lemma n_update_regs b bl d m ws p rs1 rs2 pcp c k rd im x y pc ram :
  nholds b m ws -> length ws = 32%nat ->
  nprepared (p_rdu p) (k mod 32) -> nprepared (p_rd p) (rd mod 32) -> nprepared (p_imm p) im ->
  nprepared rs1 x -> nprepared rs2 y -> nprepared pcp pc -> nenc bl c ram ->
  n_fresh z + n_select z <= tau -> bl + 3 * n_bytes z + n_select z <= tau ->
  let res := rd_sel (k mod 32) im x y pc ram in
  let ws' := put_word (put_word ws (Z.to_nat (rd mod 32)) res) 0 0 in
  exists m', update_regs N None e RD_RV32I d m p rs1 rs2 pcp c = Some (m', d) /\
    nholds (b + grow_regs log z) m' ws' /\ length ws' = 32%nat.
Proof.
  intros H L Pk Prd Pi P1 P2 Pp Hc B1 B2 res ws'.
  destruct (n_rd_select _ _ _ _ _ _ _ HN rs1 rs2 (p_imm p) pcp x y im pc c ram (p_rdu p) (k mod 32) bl (tau - n_select z) P1 P2 Pi Pp Hc Pk)
    as (mm & r & E1 & E2 & E3 & Hr); [lia|lia|].
  rewrite mod_mod_id in Hr by lia. fold res in Hr.
  assert (B : m_bits m = 5%nat) by (eapply nholds_bits; eauto; now rewrite L).
  pose proof (Z.mod_pos_bound rd 32 ltac:(lia)) as Mrd.
  pose proof (addr_ok _ _ 0 5 Prd ltac:(lia)) as A. change (2 ^ Z.of_nat 0) with 1 in A. change (2 ^ Z.of_nat 5) with 32 in A.
  rewrite Z.div_1_r, mod_mod_id in A by lia. apply (addresses_bits _ _ _ _ _ (eq_sym B)) in A.
  pose proof (n_refresh _ _ _ _ _ _ _ HN _ _ _ Hr ltac:(lia)) as Hf.
  assert (Zf : 0 <= n_fresh z) by (pose proof (y_pos _ _ _ _ _ _ _ HN) as ZP; unfold noise_pos in ZP; tauto).
  destruct (n_write _ _ _ _ _ _ _ HN (n_threads e) (sched e 12) b (n_fresh z) m ws _ 0 (Z.to_nat (rd mod 32)) _ _ H ltac:(lia)
    (env_mem e Henv 12 ltac:(lia) ltac:(lia) ltac:(lia)) A Zf Hf) as (m1 & E4 & H1).
  assert (L1 : length (put_word ws (Z.to_nat (rd mod 32)) res) = 32%nat) by (rewrite put_word_length; lia).
  destruct (n_zero _ _ _ _ _ _ _ HN (n_threads e) (sched e 13) _ m1 _ 0 H1 ltac:(lia) (env_mem e Henv 13 ltac:(lia) ltac:(lia) ltac:(lia)))
    as (m2 & E5 & H2).
  assert (C0 : cleared log 0 = 0%nat).
  { unfold cleared. pose proof (ring_pos log). rewrite Nat.div_0_l by lia. now rewrite Nat.mod_0_l by lia. }
  rewrite C0, L1 in H2. change (0 <? 32)%nat with true in H2. cbv beta iota in H2. fold ws' in H2.
  assert (L2 : length ws' = 32%nat) by (unfold ws'; rewrite put_word_length; lia).
  exists m2. split; [|split; auto].
  - unfold update_regs. rewrite E1, E2, E3. unfold prepare_low. change (32 <=? 32)%nat with true. cbv beta iota.
    rewrite E4, E5. now rewrite n_shadow.
  - rewrite B in H2. unfold grow_regs, e_put.
    match goal with |- Noise.nholds _ _ _ ?u _ _ => match type of H2 with Noise.nholds _ _ _ ?w _ _ => replace u with w by ring end end.
    exact H2.
Qed.

Lemma n_update_ram b by_ bl d m1 ws slot mb p c loaded pa k y ram addr : length ws = (2 ^ mb)%nat -> (slot < length ws)%nat ->
  nprepared (p_mu p) (k mod 4) -> nenc by_ c y -> nenc bl loaded ram -> 0 <= addr ->
  nprepared pa (addr mod 2 ^ Z.of_nat (mb + 2)) ->
  by_ + n_bytes z + 2 * n_select z <= tau -> bl + n_bytes z + 2 * n_select z <= tau ->
  (forall w v, nenc (n_fresh z) w v -> exists m2, mem_read_statefull_rev N (n_threads e) (sched e 14) m1 w pa 2 = Some m2 /\
     nholds b m2 (put_word ws slot v)) ->
  let v := ram_sel (k mod 4) y ram (addr mod 4) in
  let ws' := put_word ws slot v in
  exists m', update_ram_enc N None e d m1 (2 ^ mb) p c loaded pa = Some (m', d) /\
    nholds b m' ws' /\ length ws' = (2 ^ mb)%nat.
Proof.
  intros L Hs Pk Hy Hr Ha Hp B1 B2 Hrev v ws'.
  assert (Hy' : nenc (Z.max by_ bl) c y) by (eapply nenc_mono; eauto; lia).
  assert (Hr' : nenc (Z.max by_ bl) loaded ram) by (eapply nenc_mono; eauto; lia).
  destruct (n_ram_select _ _ _ _ _ _ _ HN c loaded pa y ram _ (p_mu p) (k mod 4) _ (tau - n_select z) Hy' Hr' Hp Pk) as (mm & r & E1 & E2 & E3 & Hv); [lia|].
  rewrite mod_mod_id in Hv by lia. rewrite (proj2 (mod_split addr mb Ha)) in Hv. fold v in Hv.
  pose proof (n_refresh _ _ _ _ _ _ _ HN _ _ _ Hv ltac:(lia)) as Hf.
  destruct (Hrev _ _ Hf) as (m2 & E4 & H2). fold ws' in H2.
  assert (L2 : length ws' = (2 ^ mb)%nat) by (unfold ws'; rewrite put_word_length; auto).
  exists m2. split; [|auto].
  unfold update_ram_enc. rewrite E1, E2, E3. unfold prepare_low. change (32 <=? 32)%nat with true. cbv beta iota.
  rewrite E4. now rewrite n_shadow.
Qed.

Lemma n_pc_prepared rb mb b v s : nshows rb mb b v s -> b_pc b <= tau ->
  exists pcp, (if v_cycle v =? 0 then Some (v_pcp v) else prepare_low N (v_pc v) (v_rom_bits v + 2)) = Some pcp /\
    nprepared pcp (f_pc (xfields rb mb s)) /\ f_pc (xfields rb mb s) / 4 < 2 ^ Z.of_nat rb.
Proof.
  intros (_ & _ & _ & S4 & S5 & _ & _ & _ & _ & _ & _ & _ & _ & S14 & S15 & S16 & S17 & S18) BB.
  rewrite S16, S4. cbn [xfields f_pc]. destruct (Z.eqb_spec (x_cycle s) 0) as [E|E].
  - eexists. split; [reflexivity|]. split; auto.
  - unfold prepare_low. rewrite (proj2 (Nat.leb_le _ _)) by lia. eexists. split; [reflexivity|].
    pose proof (n_prepare _ _ _ _ _ _ _ HN _ _ _ (rb + 2) S14 BB) as Pr. rewrite Nat2Z.inj_add in Pr.
    change (Z.of_nat 2) with 2 in Pr. split; auto.
    assert (0 < 2 ^ Z.of_nat rb) by (apply Z.pow_pos_nonneg; lia).
    apply Z.div_lt_upper_bound; [lia|]. rewrite Z.pow_add_r by lia. change (2 ^ 2) with 4.
    pose proof (Z.mod_pos_bound (x_pc s) (2 ^ Z.of_nat rb * 4) ltac:(lia)). lia.
Qed.
Lemma n_pcu_known rb mb b v s : nshows rb mb b v s -> In (f_pcu (xfields rb mb s) mod 16) (map pc_id PC_LIST).
Proof.
  intros (_ & _ & _ & _ & _ & FF & _). cbn [xfields f_pcu].
  match goal with |- In (nth ?k _ 0 mod 16) _ => destruct (nth_in_or_default k (pcu_rom (x_rom s)) 0) as [H|H] end.
  - rewrite Forall_forall in FF. now apply FF.
  - rewrite H. vm_compute. tauto.
Qed.

Lemma n_cycle rb mb b chk v s : nshows rb mb b v s -> budget log t z rb mb b ->
  (chk = true -> x_cycle s + 1 < 4294967296) ->
  exists v', ecycle N None e chk v = Some v' /\ nshows rb mb (after log z mb 1 b) v' (xcycle rb mb s).
Proof.
  intros S (U1 & U2 & U3 & U4 & U5 & U6 & U7) Hk.
  destruct (n_pc_prepared rb mb b v s S U3) as (pcp & Epc & Ppc & Hpc).
  pose proof (n_pcu_known rb mb b v s S) as Hin.
  pose proof (y_pos _ _ _ _ _ _ _ HN) as ZP. unfold noise_pos in ZP.
  pose proof S as (S1 & S2 & S3 & S4 & S5 & S6 & S7 & S8 & S9 & S10 & S11 & S12 & S13 & S14 & S15 & S16 & S17 & S18).
  set (f := xfields rb mb s) in *.
  destruct (n_components (b_rom b) (v_debug v) (v_rom v) (x_rom s) pcp (f_pc f) rb (v_rom_size v) S1 S2 S3 S5 Ppc Hpc U1)
    as (er & p & E1 & R1 & Q1 & Q2 & Q3 & Q4 & Q5 & Q6 & Q7).
  change (nth (Z.to_nat (f_pc f / 4)) (imm_rom (x_rom s)) 0) with (f_imm f) in *.
  change (nth (Z.to_nat (f_pc f / 4)) (rs1_rom (x_rom s)) 0) with (f_rs1 f) in *.
  change (nth (Z.to_nat (f_pc f / 4)) (rs2_rom (x_rom s)) 0) with (f_rs2 f) in *.
  change (nth (Z.to_nat (f_pc f / 4)) (rd_rom (x_rom s)) 0) with (f_rd f) in *.
  change (nth (Z.to_nat (f_pc f / 4)) (rdu_rom (x_rom s)) 0) with (f_rdu f) in *.
  change (nth (Z.to_nat (f_pc f / 4)) (mu_rom (x_rom s)) 0) with (f_mu f) in *.
  change (nth (Z.to_nat (f_pc f / 4)) (pcu_rom (x_rom s)) 0) with (f_pcu f) in *.
  destruct (n_read_regs (b_regs b) (v_debug v) (v_regs v) (x_regs s) p (f_rs1 f) (f_rs2 f) S7 S8 Q5 Q6 U2)
    as (m0 & c2 & q1 & q2 & E2 & M0 & Hc2 & Hq1 & Hq2).
  change (nth (Z.to_nat (f_rs1 f mod 32)) (x_regs s) 0) with (f_x f) in *.
  change (nth (Z.to_nat (f_rs2 f mod 32)) (x_regs s) 0) with (f_y f) in *.
  destruct (n_read_ram (b_ram b) (v_debug v) (v_ram v) (x_ram s) mb p q1 (f_imm f) (f_x f) S9 S10 S13 Q4 Hq1 ltac:(lia))
    as (m1 & c3 & pa & E3 & Hc3 & Hpa & Hrev).
  change (to_word (f_imm f + f_x f - 2 ^ 18)) with (f_addr f) in *.
  change (Z.to_nat (f_addr f / 4 mod 2 ^ Z.of_nat mb)) with (f_slot f) in *.
  change (nth (f_slot f) (x_ram s) 0) with (f_loaded f) in *.
  destruct (n_update_regs (b_regs b) _ (v_debug v) m0 (x_regs s) p q1 q2 pcp c3 (f_rdu f) (f_rd f) (f_imm f) (f_x f) (f_y f) (f_pc f) (f_loaded f)
    M0 S8 Q1 Q7 Q4 Hq1 Hq2 Ppc Hc3 U4 U5) as (m2 & E4 & H4 & L4).
  change (rd_sel (f_rdu f mod 32) (f_imm f) (f_x f) (f_y f) (f_pc f) (f_loaded f)) with (f_result f) in *.
  assert (Wa : 0 <= f_addr f) by (apply Z.mod_pos_bound; lia).
  assert (Hslot : (f_slot f < length (x_ram s))%nat).
  { rewrite S10. unfold f_slot, f, xfields. cbv zeta. fold f. apply Nat2Z.inj_lt.
    assert (0 < 2 ^ Z.of_nat mb) by (apply Z.pow_pos_nonneg; lia).
    match goal with |- Z.of_nat (Z.to_nat (?a mod _)) < _ => pose proof (Z.mod_pos_bound a (2 ^ Z.of_nat mb) ltac:(lia)) end.
    rewrite Z2Nat.id by lia. rewrite Nat2Z.inj_pow. change (Z.of_nat 2) with 2. lia. }
  destruct (n_update_ram _ _ _ (v_debug v) m1 (x_ram s) (f_slot f) mb p c2 c3 pa (f_mu f) (f_y f) (f_loaded f) (f_addr f) S10 Hslot Q2 Hc2 Hc3 Wa Hpa U7 U6 Hrev)
    as (m3 & E5 & H5 & L5).
  change (ram_sel (f_mu f mod 4) (f_y f) (f_loaded f) (f_addr f mod 4)) with (f_stored f) in *.
  pose proof (n_pc _ _ _ _ _ _ _ HN q1 q2 pcp (p_imm p) (p_pcu p) (f_x f) (f_y f) (f_pc f) (f_imm f) (f_pcu f) Hq1 Hq2 Ppc Q4 Q3 Hin) as H6.
  exists {| v_cycle := u32 (v_cycle v + 1); v_debug := v_debug v;
          v_rom_bits := v_rom_bits v; v_rom_size := v_rom_size v; v_rom := er;
          v_regs := m2; v_ram_bits := v_ram_bits v; v_ram_size := v_ram_size v; v_ram := m3;
          v_pc := update_pc_enc N q1 q2 pcp (p_imm p) (p_pcu p); v_pcp := pcp |}.
  split.
  - unfold ecycle. rewrite Epc, E1. cbv beta iota. rewrite E2. cbv beta iota. rewrite S12, E3. cbv beta iota. rewrite E4.
    cbv beta iota. rewrite S11, E5. cbv beta iota. unfold update_pc_stage. rewrite n_shadow.
    replace (negb chk || (v_cycle v + 1 <? 4294967296)) with true; [reflexivity|].
    symmetry. destruct chk; cbn [negb orb]; auto. apply Z.ltb_lt. rewrite S16. auto.
  - unfold Noise.nshows, xcycle. fold f. cbn [after].
    cbn [v_cycle v_rom_bits v_rom_size v_rom v_regs v_ram_bits v_ram_size v_ram v_pc v_pcp x_cycle x_rom x_regs x_ram x_pc x_last
      b_rom b_regs b_ram b_pc].
    change (Z.of_nat 1) with 1. rewrite !Z.mul_1_l.
    split; [exact R1|]. split; [exact S2|]. split; [exact S3|]. split; [exact S4|]. split; [exact S5|]. split; [exact S6|].
    split; [exact H4|]. split; [exact L4|]. split; [exact H5|]. split; [exact L5|]. split; [exact S11|]. split; [exact S12|].
    split; [exact S13|]. split; [exact H6|]. split; [exact Ppc|]. split; [now rewrite S16|].
    split; [apply Z.mod_pos_bound; lia|]. intros _. exact Hpc.
Qed.
End Cycle.

(** ** runs *)
Lemma e_move_nn bits : 0 <= e_move log z bits.
Proof. apply (e_move_pos _ _ _ _ _ _ _ HN). Qed.
Lemma grow_nn mb : 0 <= grow_regs log z /\ 0 <= grow_ram log z mb.
Proof.
  pose proof (y_pos _ _ _ _ _ _ _ HN) as ZP. unfold noise_pos in ZP.
  pose proof (e_move_nn 5). pose proof (e_move_nn mb). unfold grow_regs, grow_ram, e_put, e_clear. lia.
Qed.
Lemma e_read_nn bits : 0 <= e_read log z bits.
Proof.
  pose proof (y_pos _ _ _ _ _ _ _ HN) as ZP. unfold noise_pos in ZP.
  unfold e_read, cols. assert (0 <= Z.of_nat (min log bits) * n_crot z) by (apply Z.mul_nonneg_nonneg; lia). lia.
Qed.

Lemma budget_earlier rb mb b n k : (k <= n)%nat -> b_pc b <= tau -> budget log t z rb mb (after log z mb n b) ->
  budget log t z rb mb (after log z mb k b).
Proof.
  intros Hk Hp H. destruct (grow_nn mb) as [G1 G2]. destruct n as [|n]; [now replace k with 0%nat by lia|].
  unfold budget in *. cbn [after b_rom b_regs b_ram b_pc] in H.
  destruct k as [|k]; cbn [after b_rom b_regs b_ram b_pc]; nia.
Qed.
Lemma after_after mb n b : after log z mb n (after log z mb 1 b) = after log z mb (S n) b.
Proof.
  destruct n; [reflexivity|]. cbn [after b_rom b_regs b_ram b_pc]. f_equal; lia.
Qed.

Lemma n_cycles rb mb chk es : forall b v s, nshows rb mb b v s -> Forall env_ok es ->
  b_pc b <= tau -> budget log t z rb mb (after log z mb (length es) b) ->
  (chk = true -> x_cycle s + Z.of_nat (length es) < 4294967296) ->
  exists v', ecycles N None chk es v = Some v' /\
    nshows rb mb (after log z mb (length es) b) v' (xcycles rb mb (length es) s).
Proof.
  induction es as [|e es IH]; intros b v s S He Hp Hb Hk.
  - exists v. split; auto.
  - inversion He as [|? ? He1 He2]; subst. cbn [length ecycles xcycles] in *.
    pose proof (budget_earlier rb mb b _ 0 (Nat.le_0_l _) Hp Hb) as B0. cbn [after] in B0.
    destruct (n_cycle e He1 rb mb b chk v s S B0) as (v1 & E1 & S1).
    { intro Hc. specialize (Hk Hc). lia. }
    rewrite E1. rewrite <- after_after in Hb |- *. apply IH; auto.
    + cbn [after b_pc]. unfold budget in B0. pose proof (y_pos _ _ _ _ _ _ _ HN) as ZP. unfold noise_pos in ZP. lia.
    + intro Hc. specialize (Hk Hc). destruct S as (_ & _ & _ & _ & _ & _ & _ & _ & _ & _ & _ & _ & _ & _ & _ & _ & S17 & _).
      unfold xcycle. cbn [x_cycle]. unfold to_word. rewrite Z.mod_small; lia.
Qed.

(** ** from an ideal machine *)
Lemma encrypts_nshows rb mb b v w s : encrypts log t phase fphase pbit b v w -> shows log rb mb w s -> nshows rb mb b v s.
Proof.
  intros (E1 & E2 & E3 & E4 & E5 & E6 & E7 & E8 & E9 & E10 & E11 & E12 & E13 & E14 & E15 & E16 & E17)
    (S1 & S2 & S3 & S4 & S5 & S6 & S7 & S8 & S9 & S10 & S11 & S12 & S13 & S14 & S15 & S16 & S17 & S18).
  destruct S1 as (R1 & R2 & R3 & R4 & R5 & R6 & R7).
  unfold Noise.nshows. rewrite E12, E14, E15, E16, E17.
  split. { exact (conj (ex_intro _ _ (conj R1 E1)) (conj (ex_intro _ _ (conj R2 E2)) (conj (ex_intro _ _ (conj R3 E3))
    (conj (ex_intro _ _ (conj R4 E4)) (conj (ex_intro _ _ (conj R5 E5)) (conj (ex_intro _ _ (conj R6 E6)) (ex_intro _ _ (conj R7 E7)))))))). }
  split; [exact S2|]. split; [exact S3|]. split; [exact S4|]. split; [exact S5|]. split; [exact S6|].
  split; [exact (ex_intro _ _ (conj S7 E8))|]. split; [exact S8|]. split; [exact (ex_intro _ _ (conj S9 E9))|].
  split; [exact S10|]. split; [exact S11|]. split; [exact S12|]. split; [exact S13|].
  split. { eapply (nenc_of t fphase); [exact S14|]. intros i Hi. rewrite <- nth_scale. now apply E10. }
  split; [unfold Noise.nprepared; now rewrite E11|]. split; [exact S16|]. split; [exact S17|]. exact S18.
Qed.

(** ** decryption *)
Lemma open_vm_ok rb mb b v s : torus_ok t -> nshows rb mb b v s ->
  2 * b_rom b < t_delta t -> 2 * b_regs b < t_delta t -> 2 * b_ram b < t_delta t -> 2 * b_pc b < t_delta t ->
  shows log rb mb (open_vm t phase fphase pbit v) s.
Proof.
  intros T (S1 & S2 & S3 & S4 & S5 & S6 & S7 & S8 & S9 & S10 & S11 & S12 & S13 & S14 & S15 & S16 & S17 & S18) B1 B2 B3 B4.
  unfold shows, open_vm.
  cbn [v_cycle v_rom_bits v_rom_size v_rom v_regs v_ram_bits v_ram_size v_ram v_pc v_pcp].
  assert (O : forall b' m ws, 2 * b' < t_delta t -> nholds b' m ws -> holds log (open_mem t phase m) ws).
  { intros b' m ws Hb Hm. exact (open_mem_ok _ _ _ _ _ _ _ HN b' m ws T Hb Hm). }
  split. { unfold nrom in S1. unfold rom_holds. cbn [e_imm e_rs1 e_rs2 e_rd e_rdu e_mu e_pcu].
    destruct S1 as (R1 & R2 & R3 & R4 & R5 & R6 & R7). exact (conj (O _ _ _ B1 R1) (conj (O _ _ _ B1 R2) (conj (O _ _ _ B1 R3) (conj (O _ _ _ B1 R4)
      (conj (O _ _ _ B1 R5) (conj (O _ _ _ B1 R6) (O _ _ _ B1 R7))))))). }
  split; [exact S2|]. split; [exact S3|]. split; [exact S4|]. split; [exact S5|]. split; [exact S6|].
  split; [exact (O _ _ _ B2 S7)|]. split; [exact S8|]. split; [exact (O _ _ _ B3 S9)|]. split; [exact S10|]. split; [exact S11|].
  split; [exact S12|]. split; [exact S13|]. split; [eapply (open_fu_ok _ _ _ _ _ _ _ HN); eauto|].
  split; [exact S15|]. split; [exact S16|]. split; [exact S17|]. exact S18.
Qed.
Lemma budget_open rb mb b : torus_ok t -> budget log t z rb mb b ->
  2 * b_rom b < t_delta t /\ 2 * b_regs b < t_delta t /\ 2 * b_ram b < t_delta t /\ 2 * b_pc b < t_delta t.
Proof.
  intros (_ & _ & _ & _ & T) (U1 & U2 & U3 & U4 & U5 & U6 & U7).
  pose proof (y_pos _ _ _ _ _ _ _ HN) as ZP. unfold noise_pos in ZP.
  pose proof (e_read_nn rb). pose proof (e_read_nn 5). pose proof (e_move_nn mb). lia.
Qed.
End Impl.
