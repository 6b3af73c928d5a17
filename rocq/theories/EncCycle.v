(** One cycle of the encrypted VM is one step of [xcycle]. *)
Require Import ZArith List Bool Lia.
Require Import Verif.Word Verif.Isa Verif.Bits Verif.Codec Verif.EvalSpec Verif.EvalPlain Verif.EvalFacts Verif.ListFacts
  Verif.DebugVM Verif.DebugFacts Verif.DebugStep Verif.Bdd Verif.BddFacts Verif.CircFacts Verif.Glwe Verif.GlweFacts Verif.Par Verif.ParFacts Verif.EncMem
  Verif.MemSpec Verif.MemFacts Verif.MemOps Verif.MemClient Verif.Prepare Verif.PrepFacts Verif.EncEval Verif.EncVM Verif.EncSpec
  Verif.EncFacts.
Import ListNotations.
Ltac Zify.zify_post_hook ::= idtac.
Open Scope Z_scope.

Section Cycle.
Variable log : nat.
Notation I := (Ideal log).
Variables (sk : option (secret poly bool (list Z))) (on : bool) (e : env).
(** a key that decrypts: words, prepared words, and whole memories *)
Definition good_key (k : secret poly bool (list Z)) : Prop :=
  (forall c, s_fu k c = decrypt_word c) /\ (forall q, s_pb k q = pack_bits q) /\
  (forall m ws n, holds log m ws -> length ws = n -> s_mem k m (repeat 0 n) = Some ws).
Definition key_ok : Prop := (sk = None /\ on = false) \/ ((exists k, sk = Some k /\ good_key k) /\ on = true).
Hypothesis Hkey : key_ok.
Hypothesis Henv : env_ok e.

Lemma shadow_eq d st same same' : (forall k v, good_key k -> same k v = same' v) -> shadow sk d st same = check on d st same'.
Proof.
  intro H. destruct Hkey as [[-> ->]|[(k & -> & GK) ->]]; destruct d as [v|]; cbn [shadow check]; auto.
  destruct (st v); auto. now rewrite (H k _ GK).
Qed.
Lemma env_mem i : (i < 15)%nat -> i <> 7%nat -> i <> 10%nat -> par_order (n_threads e) 32 (sched e i).
Proof. apply Henv. Qed.

Lemma read_one i m ws addr off w k : holds log m ws -> (i < 15)%nat -> i <> 7%nat -> i <> 10%nat ->
  prepared addr w -> m_bits m = k -> (off + k <= 32)%nat ->
  exists c, mem_read_stateless I (n_threads e) (sched e i) m addr off = Some (m, c) /\
    enc_of c (nth (Z.to_nat (w / 2 ^ Z.of_nat off mod 2 ^ Z.of_nat k)) ws 0).
Proof.
  intros H H1 H2 H3 P <- L. apply stateless_ok; auto; [now apply env_mem|]. now apply addr_ok.
Qed.

Lemma prepare_fresh n order bits counts : n = length counts -> length bits = length counts ->
  forallb (fun c => c <=? 32)%nat counts = true -> par_order (n_threads e) (list_sum counts) order ->
  prepare_multiple I (n_threads e) order (fresh I n) bits counts =
  Some (map (fun wc => prepare_custom I (fst wc) (snd wc)) (combine bits counts)).
Proof.
  intros -> L F P. destruct (prepare_multiple_ok I (n_threads e) order (fresh I (length counts)) bits counts) as (out & E & LO & HO); auto.
  - unfold fresh. apply repeat_length.
  - intros r Hr. apply repeat_spec in Hr. subst r. reflexivity.
  - rewrite E. f_equal. apply nth_error_ext. intro i. rewrite nth_error_map.
    destruct (le_lt_dec (length counts) i) as [G|G].
    + rewrite (proj2 (nth_error_None out i)) by lia.
      rewrite (proj2 (nth_error_None (combine bits counts) i)); auto. rewrite combine_length. lia.
    + destruct (nth_error_lt _ counts i G) as [c Hc]. destruct (nth_error_lt _ bits i) as [w Hw]; [lia|].
      rewrite (nth_error_combine _ _ bits counts i), Hw, Hc. cbn. now apply HO.
Qed.

Lemma holds_bits m ws k : holds log m ws -> bit_len_pred (Z.of_nat (length ws)) = Some k -> m_bits m = k.
Proof. intros (_ & H & _) E. congruence. Qed.

Lemma components_ok er r pcp pc rb n :
  rom_holds log er r -> rom_len n r -> bit_len_pred (Z.of_nat n) = Some rb -> (rb <= 30)%nat ->
  prepared pcp pc -> pc / 4 < 2 ^ Z.of_nat rb ->
  let k := Z.to_nat (pc / 4) in
  let g t := nth k t 0 in
  exists p, (forall d, read_components I sk e d er pcp =
    (do d' <- check on d read_instructions (fun v => let l := lat v in
       (pc =? dpc v) && (g (imm_rom r) =? imm l) && (g (rs1_rom r) =? rs1_addr l) && (g (rs2_rom r) =? rs2_addr l) &&
       (g (rd_rom r) =? rd_addr l) && (g (rdu_rom r) =? rdu l) && (g (mu_rom r) =? mu l) && (g (pcu_rom r) =? pcu l));
     Some (er, d', p))) /\
    prepared (p_rdu p) (g (rdu_rom r) mod 32) /\ prepared (p_mu p) (g (mu_rom r) mod 4) /\
    prepared (p_pcu p) (g (pcu_rom r) mod 16) /\ prepared (p_imm p) (g (imm_rom r)) /\
    prepared (p_rs1 p) (g (rs1_rom r) mod 32) /\ prepared (p_rs2 p) (g (rs2_rom r) mod 32) /\
    prepared (p_rd p) (g (rd_rom r) mod 32).
Proof.
  intros (R1 & R2 & R3 & R4 & R5 & R6 & R7) (L1 & L2 & L3 & L4 & L5 & L6 & L7) B Hrb P Hpc.
  pose proof (prepared_word _ _ P) as [Wp _]. assert (H0 : 0 <= pc / 4) by (apply Z.div_pos; lia).
  cbv zeta.
  assert (Ek : Z.to_nat (pc / 2 ^ Z.of_nat 2 mod 2 ^ Z.of_nat rb) = Z.to_nat (pc / 4)).
  { change (2 ^ Z.of_nat 2) with 4. rewrite Z.mod_small; auto. }
  assert (RD : forall i m ws, holds log m ws -> length ws = n -> (i < 7)%nat ->
    exists c, mem_read_stateless I (n_threads e) (sched e i) m pcp 2 = Some (m, c) /\ enc_of c (nth (Z.to_nat (pc / 4)) ws 0)).
  { intros i m ws Hm Hl Hi. rewrite <- Ek. apply read_one; auto; try lia. eapply holds_bits; eauto. now rewrite Hl. }
  destruct (RD 0%nat _ _ R1 L1 ltac:(lia)) as (c_imm & E1 & C1).
  destruct (RD 1%nat _ _ R5 L5 ltac:(lia)) as (c_rdu & E2 & C2).
  destruct (RD 2%nat _ _ R6 L6 ltac:(lia)) as (c_mu & E3 & C3).
  destruct (RD 3%nat _ _ R7 L7 ltac:(lia)) as (c_pcu & E4 & C4).
  destruct (RD 4%nat _ _ R2 L2 ltac:(lia)) as (c_rs1 & E5 & C5).
  destruct (RD 5%nat _ _ R3 L3 ltac:(lia)) as (c_rs2 & E6 & C6).
  destruct (RD 6%nat _ _ R4 L4 ltac:(lia)) as (c_rd & E7 & C7).
  exists (Parts (prepare_custom I c_rdu 5) (prepare_custom I c_mu 2) (prepare_custom I c_pcu 4) (prepare_custom I c_imm 32)
     (prepare_custom I c_rs1 5) (prepare_custom I c_rs2 5) (prepare_custom I c_rd 5)).
  split.
  - intro d. unfold read_components. rewrite E1, E2, E3, E4, E5, E6, E7.
    change (bit_len_pred (Z.of_nat (length RD_RV32I))) with (Some 5%nat).
    change (bit_len_pred (Z.of_nat (length RAM_LIST))) with (Some 2%nat). cbv beta iota.
    rewrite (prepare_fresh 7 (sched e 7) [c_rdu; c_mu; c_pcu; c_imm; c_rs1; c_rs2; c_rd] [5;2;4;32;5;5;5]%nat eq_refl eq_refl eq_refl)
      by apply Henv.
    cbn [map combine fst snd].
    erewrite shadow_eq.
    + destruct er. reflexivity.
    + intros key v (K1 & K2 & _). rewrite !K1, K2. destruct P as [_ EP].
      rewrite EP, (enc_decrypt _ _ C1), (enc_decrypt _ _ C2), (enc_decrypt _ _ C3), (enc_decrypt _ _ C4),
        (enc_decrypt _ _ C5), (enc_decrypt _ _ C6), (enc_decrypt _ _ C7). reflexivity.
  - cbn [p_rdu p_mu p_pcu p_imm p_rs1 p_rs2 p_rd].
    split; [apply (prepare_prepared log _ _ 5 C2)|]. split; [apply (prepare_prepared log _ _ 2 C3)|].
    split; [apply (prepare_prepared log _ _ 4 C4)|]. split; [apply (prepare_all log _ _ C1)|].
    split; [apply (prepare_prepared log _ _ 5 C5)|]. split; [apply (prepare_prepared log _ _ 5 C6)|].
    apply (prepare_prepared log _ _ 5 C7).
Qed.

Lemma mod_mod_id a n : 0 < n -> (a mod n) mod n = a mod n.
Proof. intro. apply Z.mod_mod. lia. Qed.

Lemma read_regs_ok m ws p r1 r2 : holds log m ws -> length ws = 32%nat ->
  prepared (p_rs1 p) (r1 mod 32) -> prepared (p_rs2 p) (r2 mod 32) ->
  let x := nth (Z.to_nat (r1 mod 32)) ws 0 in let y := nth (Z.to_nat (r2 mod 32)) ws 0 in
  exists c q1 q2, (forall d, read_regs I sk e d m p =
    (do d' <- check on d read_registers (fun v => (x =? rs1_val (lat v)) && (y =? rs2_val (lat v)));
     Some (m, d', c, q1, q2))) /\ enc_of c y /\ prepared q1 x /\ prepared q2 y.
Proof.
  intros H L P1 P2 x y.
  assert (B : m_bits m = 5%nat) by (eapply holds_bits; eauto; now rewrite L).
  destruct (read_one 8 m ws (p_rs1 p) 0 _ 5 H ltac:(lia) ltac:(lia) ltac:(lia) P1 B ltac:(lia)) as (c1 & E1 & C1).
  destruct (read_one 9 m ws (p_rs2 p) 0 _ 5 H ltac:(lia) ltac:(lia) ltac:(lia) P2 B ltac:(lia)) as (c2 & E2 & C2).
  change (2 ^ Z.of_nat 0) with 1 in C1, C2. change (2 ^ Z.of_nat 5) with 32 in C1, C2.
  rewrite Z.div_1_r, mod_mod_id in C1, C2 by lia. fold x in C1. fold y in C2.
  exists c2, (prepare_custom I c1 32), (prepare_custom I c2 32).
  split; [|split; [exact C2|split; now apply prepare_all]].
  intro d. unfold read_regs. rewrite E1, E2. cbv beta iota.
  rewrite (prepare_fresh 2 (sched e 10) [c1; c2] [32; 32]%nat eq_refl eq_refl eq_refl) by apply Henv.
  cbn [map combine fst snd]. erewrite shadow_eq; [reflexivity|].
  intros key v (K1 & _). now rewrite !K1, (enc_decrypt _ _ C1), (enc_decrypt _ _ C2).
Qed.

Lemma bit_len_pow mb : bit_len_pred (Z.of_nat (2 ^ mb)) = Some mb.
Proof.
  assert (0 < 2 ^ mb)%nat by (apply Nat.neq_0_lt_0, Nat.pow_nonzero; lia).
  destruct (bit_len_pred (Z.of_nat (2 ^ mb))) as [k|] eqn:E.
  - destruct (bit_len_bounds _ _ E) as (_ & U & Lo). f_equal.
    destruct (Nat.lt_trichotomy k mb) as [G|[G|G]]; auto; exfalso.
    + apply (Nat.pow_lt_mono_r 2) in G; lia.
    + specialize (Lo ltac:(lia)). assert (mb <= k - 1)%nat by lia. apply (Nat.pow_le_mono_r 2) in H0; lia.
  - unfold bit_len_pred in E. destruct (Z.leb_spec (Z.of_nat (2 ^ mb)) 0); [lia|discriminate].
Qed.

Lemma mod_split addr mb : 0 <= addr ->
  (addr mod 2 ^ Z.of_nat (mb + 2)) / 4 mod 2 ^ Z.of_nat mb = addr / 4 mod 2 ^ Z.of_nat mb /\
  (addr mod 2 ^ Z.of_nat (mb + 2)) mod 4 = addr mod 4.
Proof.
  intro H. rewrite Nat2Z.inj_add, Z.add_comm, Z.pow_add_r by lia. change (2 ^ Z.of_nat 2) with 4.
  assert (0 < 2 ^ Z.of_nat mb) by (apply Z.pow_pos_nonneg; lia).
  rewrite Z.rem_mul_r by lia. rewrite (Z.mul_comm 4).
  pose proof (Z.mod_pos_bound addr 4 ltac:(lia)). split.
  - rewrite Z.div_add, Z.div_small by lia. cbn [Z.add]. apply Z.mod_mod. lia.
  - rewrite Z.mod_add by lia. apply Z.mod_mod. lia.
Qed.

Lemma read_ram_ok m ws mb p q im x : holds log m ws -> length ws = (2 ^ mb)%nat -> (mb <= 30)%nat ->
  prepared (p_imm p) im -> prepared q x ->
  let addr := to_word (im + x - 2 ^ 18) in
  let slot := Z.to_nat (addr / 4 mod 2 ^ Z.of_nat mb) in
  exists m1 c pa, (forall d, read_ram_enc I sk e d m mb p q =
    (do d' <- check on d read_ram (fun v => (addr =? ram_addr (lat v)) && (nth slot ws 0 =? ram_val (lat v)));
     Some (m1, d', c, pa))) /\ enc_of c (nth slot ws 0) /\ prepared pa (addr mod 2 ^ Z.of_nat (mb + 2)) /\
    forall w v, enc_of w v ->
      exists m2, mem_read_statefull_rev I (n_threads e) (sched e 14) m1 w pa 2 = Some m2 /\ holds log m2 (put_word ws slot v).
Proof.
  intros H L Hmb Pi Pq addr slot.
  pose proof (prepared_word _ _ Pi) as Wi. pose proof (prepared_word _ _ Pq) as Wx.
  apply is_word_word in Wi, Wx.
  assert (Wa : is_word addr) by (apply is_word_word, to_word_range).
  assert (C : enc_of (ram_offset_enc I (p_imm p) q) addr).
  { unfold ram_offset_enc. eapply circ_ok; eauto. now apply ram_offset_ok. }
  assert (Bl : bit_len_pred (Z.of_nat (length ws)) = Some mb).
  { rewrite L. apply bit_len_pow. }
  pose proof (holds_bits _ _ _ H Bl) as B.
  pose proof (prepare_prepared log _ _ (mb + 2) C) as PP.
  destruct (mod_split addr mb ltac:(apply Wa)) as [MS _].
  pose proof (addr_ok _ _ 2 mb PP ltac:(lia)) as A. change (2 ^ Z.of_nat 2) with 4 in A. rewrite MS in A. fold slot in A.
  assert (Hs : (slot < length ws)%nat).
  { rewrite L. apply A. }
  apply (addresses_bits _ _ _ _ _ (eq_sym B)) in A.
  destruct (statefull_ok log (n_threads e) (sched e 11) m ws _ 2 slot H Hs (env_mem 11 ltac:(lia) ltac:(lia) ltac:(lia)) A)
    as (m1 & c & E & Hc & _ & Hrev).
  exists m1, c, (prepare_custom I (ram_offset_enc I (p_imm p) q) (mb + 2)).
  split; [|split; [exact Hc|split; [exact PP|]]].
  - intro d. unfold read_ram_enc, prepare_low. rewrite (proj2 (Nat.leb_le _ _)) by lia. rewrite E.
    erewrite shadow_eq; [reflexivity|]. intros key v (K1 & _).
    now rewrite !K1, (enc_decrypt _ _ C), (enc_decrypt _ _ Hc).
  - intros w v Hw. apply Hrev; auto. apply env_mem; lia.
Qed.

Lemma decrypt_all m ws n : holds log m ws -> length ws = n -> mem_decrypt m (repeat 0 n) = Some ws.
Proof.
  intros H L. rewrite (decrypt_eq log m ws (repeat 0 n)); auto.
  - rewrite repeat_length, <- L, firstn_all, skipn_all2, app_nil_r; auto. now rewrite repeat_length.
  - apply Forall_forall. intros w Hw. apply repeat_spec in Hw. subst w. apply is_word_0.
  - rewrite repeat_length, L. apply Nat.div_le_upper_bound; lia.
Qed.

Lemma update_regs_ok m ws p rs1 rs2 pcp c k rd im x y pc ram :
  holds log m ws -> length ws = 32%nat ->
  prepared (p_rdu p) (k mod 32) -> prepared (p_rd p) (rd mod 32) -> prepared (p_imm p) im ->
  prepared rs1 x -> prepared rs2 y -> prepared pcp pc -> enc_of c ram ->
  let res := rd_sel (k mod 32) im x y pc ram in
  let ws' := put_word (put_word ws (Z.to_nat (rd mod 32)) res) 0 0 in
  exists m', (forall d, update_regs I sk e RD_RV32I d m p rs1 rs2 pcp c =
    (do d' <- check on d (update_registers RD_RV32I) (fun v => (res =? rd_val (lat v)) && eqb_list ws' (dregs v));
     Some (m', d'))) /\ holds log m' ws' /\ length ws' = 32%nat.
Proof.
  intros H L Pk Prd Pi P1 P2 Pp Hc res ws'.
  destruct (rd_select log rs1 rs2 (p_imm p) pcp x y im pc c ram (p_rdu p) (k mod 32) P1 P2 Pi Pp Hc Pk)
    as (mm & r & E1 & E2 & E3 & Hr).
  rewrite mod_mod_id in Hr by lia. fold res in Hr.
  assert (B : m_bits m = 5%nat) by (eapply holds_bits; eauto; now rewrite L).
  pose proof (Z.mod_pos_bound rd 32 ltac:(lia)) as Mrd.
  pose proof (addr_ok _ _ 0 5 Prd ltac:(lia)) as A. change (2 ^ Z.of_nat 0) with 1 in A. change (2 ^ Z.of_nat 5) with 32 in A.
  rewrite Z.div_1_r, mod_mod_id in A by lia. apply (addresses_bits _ _ _ _ _ (eq_sym B)) in A.
  pose proof (refresh log _ _ Hr) as Hf.
  destruct (write_ok log (n_threads e) (sched e 12) m ws _ 0 (Z.to_nat (rd mod 32)) _ _ H ltac:(lia) (env_mem 12 ltac:(lia) ltac:(lia) ltac:(lia)) A Hf)
    as (m1 & E4 & H1).
  assert (L1 : length (put_word ws (Z.to_nat (rd mod 32)) res) = 32%nat) by (rewrite put_word_length; lia).
  destruct (zero_ok log (n_threads e) (sched e 13) m1 _ 0 H1 ltac:(lia) (env_mem 13 ltac:(lia) ltac:(lia) ltac:(lia)))
    as (m2 & E5 & H2).
  assert (C0 : cleared log 0 = 0%nat).
  { unfold cleared. pose proof (ring_pos log). rewrite Nat.div_0_l by lia. now rewrite Nat.mod_0_l by lia. }
  rewrite C0, L1 in H2. change (0 <? 32)%nat with true in H2. cbv beta iota in H2. fold ws' in H2.
  assert (L2 : length ws' = 32%nat) by (unfold ws'; rewrite put_word_length; lia).
  exists m2. split; [|auto].
  intro d. unfold update_regs. rewrite E1, E2, E3. unfold prepare_low. change (32 <=? 32)%nat with true. cbv beta iota.
  rewrite E4, E5. erewrite shadow_eq; [reflexivity|]. intros key v (K1 & _ & K3).
  rewrite K1, (enc_decrypt _ _ Hf), (K3 _ _ 32%nat H2 L2). reflexivity.
Qed.

Lemma update_ram_ok m1 ws slot mb p c loaded pa k y ram addr : length ws = (2 ^ mb)%nat -> (slot < length ws)%nat ->
  prepared (p_mu p) (k mod 4) -> enc_of c y -> enc_of loaded ram -> 0 <= addr ->
  prepared pa (addr mod 2 ^ Z.of_nat (mb + 2)) ->
  (forall w v, enc_of w v -> exists m2, mem_read_statefull_rev I (n_threads e) (sched e 14) m1 w pa 2 = Some m2 /\ holds log m2 (put_word ws slot v)) ->
  let v := ram_sel (k mod 4) y ram (addr mod 4) in
  let ws' := put_word ws slot v in
  exists m', (forall d, update_ram_enc I sk e d m1 (2 ^ mb) p c loaded pa =
    (do d' <- check on d update_ram (fun w => (v =? ram_val (lat w)) && eqb_list ws' (dram w)); Some (m', d'))) /\
    holds log m' ws' /\ length ws' = (2 ^ mb)%nat.
Proof.
  intros L Hs Pk Hy Hr Ha Hp Hrev v ws'.
  destruct (ram_select log c loaded pa y ram _ (p_mu p) (k mod 4) Hy Hr Hp Pk) as (mm & r & E1 & E2 & E3 & Hv).
  rewrite mod_mod_id in Hv by lia. rewrite (proj2 (mod_split addr mb Ha)) in Hv. fold v in Hv.
  pose proof (refresh log _ _ Hv) as Hf.
  destruct (Hrev _ _ Hf) as (m2 & E4 & H2). fold ws' in H2.
  assert (L2 : length ws' = (2 ^ mb)%nat) by (unfold ws'; rewrite put_word_length; auto).
  exists m2. split; [|auto].
  intro d. unfold update_ram_enc. rewrite E1, E2, E3. unfold prepare_low. change (32 <=? 32)%nat with true. cbv beta iota.
  rewrite E4. erewrite shadow_eq; [reflexivity|]. intros key w (K1 & _ & K3).
  rewrite K1, (enc_decrypt _ _ Hf), (K3 _ _ _ H2 L2). reflexivity.
Qed.

Lemma update_pc_ok p rs1 rs2 pcp k im x y pc :
  prepared rs1 x -> prepared rs2 y -> prepared pcp pc -> prepared (p_imm p) im -> prepared (p_pcu p) (k mod 16) ->
  In (k mod 16) (map pc_id PC_LIST) ->
  exists c, (forall d, update_pc_stage I sk d p rs1 rs2 pcp =
    (do d' <- check on d update_pc (fun v => pc_sel (k mod 16) im x y pc =? dpc v); Some (c, d'))) /\
    enc_of c (pc_sel (k mod 16) im x y pc).
Proof.
  intros P1 P2 Pp Pi Pk Hin.
  pose proof (pc_sel_ok log rs1 rs2 pcp (p_imm p) (p_pcu p) x y pc im k P1 P2 Pp Pi Pk Hin) as Hc.
  eexists. split; [|exact Hc]. intro d. unfold update_pc_stage.
  erewrite shadow_eq; [reflexivity|]. intros key v (K1 & _). now rewrite K1, (enc_decrypt _ _ Hc).
Qed.

Lemma pc_prepared rb mb v s : shows log rb mb v s ->
  exists pcp, (if v_cycle v =? 0 then Some (v_pcp v) else prepare_low I (v_pc v) (v_rom_bits v + 2)) = Some pcp /\
    prepared pcp (f_pc (xfields rb mb s)) /\ f_pc (xfields rb mb s) / 4 < 2 ^ Z.of_nat rb.
Proof.
  intros (_ & _ & _ & S4 & S5 & _ & _ & _ & _ & _ & _ & _ & _ & S14 & S15 & S16 & S17 & S18).
  rewrite S16, S4. cbn [xfields f_pc]. destruct (Z.eqb_spec (x_cycle s) 0) as [E|E].
  - eexists. split; [reflexivity|]. split; auto.
  - unfold prepare_low. rewrite (proj2 (Nat.leb_le _ _)) by lia. eexists. split; [reflexivity|].
    pose proof (prepare_prepared log _ _ (rb + 2) S14) as P. rewrite Nat2Z.inj_add in P.
    change (Z.of_nat 2) with 2 in P. split; auto.
    assert (0 < 2 ^ Z.of_nat rb) by (apply Z.pow_pos_nonneg; lia).
    apply Z.div_lt_upper_bound; [lia|]. rewrite Z.pow_add_r by lia. change (2 ^ 2) with 4.
    pose proof (Z.mod_pos_bound (x_pc s) (2 ^ Z.of_nat rb * 4) ltac:(lia)). lia.
Qed.

Lemma pcu_known rb mb v s : shows log rb mb v s -> In (f_pcu (xfields rb mb s) mod 16) (map pc_id PC_LIST).
Proof.
  intros (_ & _ & _ & _ & _ & F & _). cbn [xfields f_pcu].
  match goal with |- In (nth ?k _ 0 mod 16) _ => destruct (nth_in_or_default k (pcu_rom (x_rom s)) 0) as [H|H] end.
  - rewrite Forall_forall in F. now apply F.
  - rewrite H. vm_compute. tauto.
Qed.

Lemma cycle_ok rb mb chk v s : shows log rb mb v s ->
  exists mk, (forall d, shows log rb mb (mk d) (xcycle rb mb s) /\ v_debug (mk d) = d) /\
    ecycle I sk e chk v =
    (do d' <- xdebug rb mb on s (v_debug v);
     assert (negb chk || (x_cycle s + 1 <? 4294967296)); Some (mk d')).
Proof.
  intro S. destruct (pc_prepared rb mb v s S) as (pcp & Epc & Ppc & Hpc).
  pose proof (pcu_known rb mb v s S) as Hin.
  pose proof S as (S1 & S2 & S3 & S4 & S5 & S6 & S7 & S8 & S9 & S10 & S11 & S12 & S13 & S14 & S15 & S16 & S17 & S18).
  set (f := xfields rb mb s) in *.
  destruct (components_ok (v_rom v) (x_rom s) pcp (f_pc f) rb (v_rom_size v) S1 S2 S3 S5 Ppc Hpc)
    as (p & E1 & Q1 & Q2 & Q3 & Q4 & Q5 & Q6 & Q7).
  cbv zeta in E1.
  change (nth (Z.to_nat (f_pc f / 4)) (imm_rom (x_rom s)) 0) with (f_imm f) in *.
  change (nth (Z.to_nat (f_pc f / 4)) (rs1_rom (x_rom s)) 0) with (f_rs1 f) in *.
  change (nth (Z.to_nat (f_pc f / 4)) (rs2_rom (x_rom s)) 0) with (f_rs2 f) in *.
  change (nth (Z.to_nat (f_pc f / 4)) (rd_rom (x_rom s)) 0) with (f_rd f) in *.
  change (nth (Z.to_nat (f_pc f / 4)) (rdu_rom (x_rom s)) 0) with (f_rdu f) in *.
  change (nth (Z.to_nat (f_pc f / 4)) (mu_rom (x_rom s)) 0) with (f_mu f) in *.
  change (nth (Z.to_nat (f_pc f / 4)) (pcu_rom (x_rom s)) 0) with (f_pcu f) in *.
  destruct (read_regs_ok (v_regs v) (x_regs s) p (f_rs1 f) (f_rs2 f) S7 S8 Q5 Q6) as (c2 & q1 & q2 & E2 & Hc2 & Hq1 & Hq2).
  change (nth (Z.to_nat (f_rs1 f mod 32)) (x_regs s) 0) with (f_x f) in *.
  change (nth (Z.to_nat (f_rs2 f mod 32)) (x_regs s) 0) with (f_y f) in *.
  destruct (read_ram_ok (v_ram v) (x_ram s) mb p q1 (f_imm f) (f_x f) S9 S10 S13 Q4 Hq1)
    as (m1 & c3 & pa & E3 & Hc3 & Hpa & Hrev).
  change (to_word (f_imm f + f_x f - 2 ^ 18)) with (f_addr f) in *.
  change (Z.to_nat (f_addr f / 4 mod 2 ^ Z.of_nat mb)) with (f_slot f) in *.
  change (nth (f_slot f) (x_ram s) 0) with (f_loaded f) in *.
  destruct (update_regs_ok (v_regs v) (x_regs s) p q1 q2 pcp c3 (f_rdu f) (f_rd f) (f_imm f) (f_x f) (f_y f) (f_pc f) (f_loaded f)
    S7 S8 Q1 Q7 Q4 Hq1 Hq2 Ppc Hc3) as (m2 & E4 & H4 & L4).
  change (rd_sel (f_rdu f mod 32) (f_imm f) (f_x f) (f_y f) (f_pc f) (f_loaded f)) with (f_result f) in *.
  assert (Wa : 0 <= f_addr f) by (apply Z.mod_pos_bound; lia).
  assert (Hslot : (f_slot f < length (x_ram s))%nat).
  { rewrite S10. unfold f_slot, f, xfields. cbv zeta. fold f. apply Nat2Z.inj_lt.
    assert (0 < 2 ^ Z.of_nat mb) by (apply Z.pow_pos_nonneg; lia).
    match goal with |- Z.of_nat (Z.to_nat (?a mod _)) < _ => pose proof (Z.mod_pos_bound a (2 ^ Z.of_nat mb) ltac:(lia)) end.
    rewrite Z2Nat.id by lia. rewrite Nat2Z.inj_pow. change (Z.of_nat 2) with 2. lia. }
  destruct (update_ram_ok m1 (x_ram s) (f_slot f) mb p c2 c3 pa (f_mu f) (f_y f) (f_loaded f) (f_addr f) S10 Hslot Q2 Hc2 Hc3 Wa Hpa Hrev)
    as (m3 & E5 & H5 & L5).
  change (ram_sel (f_mu f mod 4) (f_y f) (f_loaded f) (f_addr f mod 4)) with (f_stored f) in *.
  destruct (update_pc_ok p q1 q2 pcp (f_pcu f) (f_imm f) (f_x f) (f_y f) (f_pc f) Hq1 Hq2 Ppc Q4 Q3 Hin) as (c6 & E6 & H6).
  exists (fun d => {| v_cycle := u32 (v_cycle v + 1); v_debug := d;
          v_rom_bits := v_rom_bits v; v_rom_size := v_rom_size v; v_rom := v_rom v;
          v_regs := m2; v_ram_bits := v_ram_bits v; v_ram_size := v_ram_size v; v_ram := m3;
          v_pc := c6; v_pcp := pcp |}).
  split.
  - intro d. split; [|reflexivity]. unfold shows. unfold xcycle. fold f.
    cbn [v_cycle v_rom_bits v_rom_size v_rom v_regs v_ram_bits v_ram_size v_ram v_pc v_pcp x_cycle x_rom x_regs x_ram x_pc x_last].
    split; [exact S1|]. split; [exact S2|]. split; [exact S3|]. split; [exact S4|]. split; [exact S5|]. split; [exact S6|].
    split; [exact H4|]. split; [exact L4|]. split; [exact H5|]. split; [exact L5|]. split; [exact S11|]. split; [exact S12|].
    split; [exact S13|]. split; [exact H6|]. split; [exact Ppc|]. split; [now rewrite S16|].
    split; [apply Z.mod_pos_bound; lia|]. intros _. exact Hpc.
  - unfold ecycle, xdebug. rewrite Epc, E1. cbv beta iota. fold f.
    match goal with |- context [check on (v_debug v) ?a ?b] => destruct (check on (v_debug v) a b) as [d1|]; [|reflexivity] end.
    cbv beta iota. rewrite E2.
    match goal with |- context [check on d1 ?a ?b] => destruct (check on d1 a b) as [d2|]; [|reflexivity] end.
    cbv beta iota. rewrite S12, E3.
    match goal with |- context [check on d2 ?a ?b] => destruct (check on d2 a b) as [d3|]; [|reflexivity] end.
    cbv beta iota. rewrite E4.
    unfold xcycle. fold f. cbn [x_regs x_ram x_pc].
    match goal with |- context [check on d3 ?a ?b] => destruct (check on d3 a b) as [d4|]; [|reflexivity] end.
    cbv beta iota. rewrite S11, E5.
    match goal with |- context [check on d4 ?a ?b] => destruct (check on d4 a b) as [d5|]; [|reflexivity] end.
    cbv beta iota. rewrite E6.
    match goal with |- context [check on d5 ?a ?b] => destruct (check on d5 a b) as [d6|]; [|reflexivity] end.
    rewrite S16. reflexivity.
Qed.
End Cycle.

Lemma key_secret log : key_ok log (Some secret_key) true.
Proof.
  right. split; [|reflexivity]. exists secret_key. split; [reflexivity|]. split; [reflexivity|]. split; [reflexivity|].
  intros m ws n. apply decrypt_all.
Qed.
Lemma key_when log (b : bool) : key_ok log (if b then Some secret_key else None) b.
Proof. destruct b; [apply key_secret|left; auto]. Qed.
