(** Runs of the encrypted VM from a loaded program (proofs). *)
Require Import ZArith List Bool Lia.
Require Import Verif.Word Verif.Isa Verif.Bits Verif.Codec Verif.DecodeSpec Verif.DecodeAccept Verif.EvalSpec Verif.EvalPlain Verif.EvalFacts Verif.ListFacts
  Verif.DebugVM Verif.DebugFacts Verif.DebugStep Verif.Bdd Verif.BddFacts Verif.CircFacts Verif.Glwe Verif.GlweFacts Verif.Par Verif.ParFacts Verif.EncMem
  Verif.MemSpec Verif.MemFacts Verif.MemOps Verif.MemClient Verif.Prepare Verif.PrepFacts Verif.EncEval Verif.EncVM Verif.EncSpec
  Verif.EncFacts Verif.EncCycle Verif.EncTrack Verif.EncLoad.
Import ListNotations.
Ltac Zify.zify_post_hook ::= idtac.
Open Scope Z_scope.

(** a program and a RAM content that fit a machine of [rom_words] instructions
    ([rb] address bits) and [2^mb] RAM words; with a shadow VM both must fill it *)
Definition fits (debug : bool) (rom_words rb mb : nat) (ws ram : list Z) : Prop :=
  Forall word ws /\ (length ws <= rom_words)%nat /\ bit_len_pred (Z.of_nat rom_words) = Some rb /\ (rb <= 30)%nat /\
  Forall word ram /\ (length ram <= 2 ^ mb)%nat /\ (mb <= 30)%nat /\
  (debug = true -> length ws = rom_words /\ length ram = (2 ^ mb)%nat).
(** [v0] is the machine loaded with them *)
Definition boots (log : nat) (dbg debug : bool) (rom_words mb : nat) (ws ram : list Z) (v0 : evm poly bool (list Z)) : Prop :=
  exists p, parser_add_all dbg parser_new ws = Some p /\ load log dbg debug rom_words (2 ^ mb) p ram = Some v0.

Lemma boots_shows log dbg debug rom_words rb mb ws ram v0 : fits debug rom_words rb mb ws ram ->
  boots log dbg debug rom_words mb ws ram v0 ->
  exists r, fill dbg ws = Some r /\ shows log rb mb v0 (xstart rom_words (2 ^ mb) r ram) /\
    v_debug v0 = (if debug then Some (dstart rom_words (2 ^ mb) r ram) else None).
Proof.
  intros (F1 & F2 & F3 & F4 & F5 & F6 & F7 & F8) (p & HP & HL).
  destruct (fill_some _ _ _ _ HP) as [r HF]. exists r. split; auto.
  destruct (load_ok log dbg debug ws rom_words ram rb mb p r F1 HP HF F2 F3 F4 F5 F6 F7 F8) as (v & L & S & D).
  rewrite HL in L. injection L as ->. auto.
Qed.
Lemma boots_exists log dbg debug rom_words rb mb ws ram : fits debug rom_words rb mb ws ram -> Forall (accepted dbg) ws ->
  exists v0, boots log dbg debug rom_words mb ws ram v0.
Proof.
  intros (F1 & F2 & F3 & F4 & F5 & F6 & F7 & F8) A. destruct (parser_accepts dbg ws A parser_new) as [p HP].
  destruct (fill_some _ _ _ _ HP) as [r HF].
  destruct (load_ok log dbg debug ws rom_words ram rb mb p r F1 HP HF F2 F3 F4 F5 F6 F7 F8) as (v & L & _).
  exists v, p. auto.
Qed.
Lemma reach_shows log dbg debug rom_words rb mb ws ram v0 sk on chk es v :
  fits debug rom_words rb mb ws ram -> boots log dbg debug rom_words mb ws ram v0 -> key_ok log sk on -> Forall env_ok es ->
  ecycles (Ideal log) sk chk es v0 = Some v ->
  exists r, fill dbg ws = Some r /\ shows log rb mb v (xcycles rb mb (length es) (xstart rom_words (2 ^ mb) r ram)).
Proof.
  intros F B K HE E. destruct (boots_shows _ _ _ _ _ _ _ _ _ F B) as (r & HF & S & _). exists r. split; auto.
  exact (run_shows log sk on rb mb chk es K HE v0 _ v S E).
Qed.

(** ** x0 *)
Lemma reg_index k : (Z.to_nat (k mod 32) < 32)%nat.
Proof. pose proof (Z.mod_pos_bound k 32 ltac:(lia)). lia. Qed.
Lemma xcycle_regs_length rb mb s : length (x_regs s) = 32%nat -> length (x_regs (xcycle rb mb s)) = 32%nat.
Proof.
  intro L. unfold xcycle. cbn [x_regs]. pose proof (reg_index (f_rd (xfields rb mb s))).
  rewrite !put_word_length; rewrite ?put_word_length; lia.
Qed.
Lemma xcycle_x0 rb mb s : length (x_regs s) = 32%nat -> nth 0 (x_regs (xcycle rb mb s)) 0 = 0.
Proof.
  intro L. unfold xcycle. cbn [x_regs]. pose proof (reg_index (f_rd (xfields rb mb s))).
  rewrite put_word_nth; [reflexivity|]. rewrite put_word_length; lia.
Qed.
Lemma xcycles_inv (P : xvm -> Prop) rb mb : (forall s, P s -> P (xcycle rb mb s)) -> forall n s, P s -> P (xcycles rb mb n s).
Proof. intros H n; induction n; cbn; auto. Qed.
Lemma xcycles_x0 rb mb n s : length (x_regs s) = 32%nat /\ nth 0 (x_regs s) 0 = 0 ->
  length (x_regs (xcycles rb mb n s)) = 32%nat /\ nth 0 (x_regs (xcycles rb mb n s)) 0 = 0.
Proof.
  apply (xcycles_inv (fun s => length (x_regs s) = 32%nat /\ nth 0 (x_regs s) 0 = 0)).
  intros s' [H _]. split; [now apply xcycle_regs_length|now apply xcycle_x0].
Qed.
Lemma reach_x0 log dbg debug rom_words rb mb ws ram v0 sk on chk es v :
  fits debug rom_words rb mb ws ram -> boots log dbg debug rom_words mb ws ram v0 -> key_ok log sk on -> Forall env_ok es ->
  ecycles (Ideal log) sk chk es v0 = Some v ->
  exists regs, dec_regs v = Some regs /\ length regs = 32%nat /\ nth_error regs 0 = Some 0.
Proof.
  intros F B K HE E. destruct (reach_shows _ _ _ _ _ _ _ _ _ _ _ _ _ _ F B K HE E) as (r & HF & S).
  eexists. split; [exact (shows_regs _ _ _ _ _ S)|].
  destruct (xcycles_x0 rb mb (length es) (xstart rom_words (2 ^ mb) r ram)) as [L Z0]; [split; reflexivity|].
  split; auto. rewrite <- Z0. apply nth_error_nth'. rewrite L. lia.
Qed.

(** ** past the end of the program *)
Lemma put_word_same ws a : (a < length ws)%nat -> put_word ws a (nth a ws 0) = ws.
Proof.
  intro H. apply (nth_ext _ _ 0 0); [now apply put_word_length|]. intros k _. rewrite put_word_nth by auto.
  destruct (Nat.eqb_spec k a); subst; auto.
Qed.
Lemma slot_lt rb mb s : (f_slot (xfields rb mb s) < 2 ^ mb)%nat.
Proof.
  unfold xfields. cbn [f_slot]. set (a := _ / 4).
  pose proof (Z.mod_pos_bound a (2 ^ Z.of_nat mb) ltac:(apply Z.pow_pos_nonneg; lia)).
  apply Nat2Z.inj_lt. rewrite Z2Nat.id, pow_nat by lia. lia.
Qed.
Lemma rom_rest k n xs : (length xs <= k)%nat -> nth k (table n xs) 0 = 0.
Proof. intro H. unfold table. rewrite app_nth2 by auto. apply nth_repeat. Qed.

(** the slot is empty: nothing but the cycle counter changes *)
Lemma halt_step rb mb s : length (x_regs s) = 32%nat -> nth 0 (x_regs s) 0 = 0 -> length (x_ram s) = (2 ^ mb)%nat ->
  word (f_pc (xfields rb mb s)) ->
  (forall xs, In xs [imm_rom (x_rom s); rs1_rom (x_rom s); rs2_rom (x_rom s); rd_rom (x_rom s); rdu_rom (x_rom s);
     mu_rom (x_rom s); pcu_rom (x_rom s)] -> nth (Z.to_nat (f_pc (xfields rb mb s) / 4)) xs 0 = 0) ->
  xcycle rb mb s = {| x_cycle := to_word (x_cycle s + 1); x_rom := x_rom s; x_regs := x_regs s; x_ram := x_ram s;
    x_pc := f_pc (xfields rb mb s); x_last := f_pc (xfields rb mb s) |}.
Proof.
  intros L Z0 LR W H. pose proof (slot_lt rb mb s) as SL.
  unfold xcycle. set (f := xfields rb mb s) in *.
  assert (E1 : f_imm f = 0) by (apply H; cbn; auto). assert (E2 : f_rs1 f = 0) by (apply H; cbn; auto).
  assert (E3 : f_rs2 f = 0) by (apply H; cbn; auto). assert (E4 : f_rd f = 0) by (apply H; cbn; auto 10).
  assert (E5 : f_rdu f = 0) by (apply H; cbn; auto 10). assert (E6 : f_mu f = 0) by (apply H; cbn; auto 10).
  assert (E7 : f_pcu f = 0) by (apply H; cbn; auto 12).
  assert (X : f_x f = 0) by (change (f_x f) with (nth (Z.to_nat (f_rs1 f mod 32)) (x_regs s) 0); rewrite E2; exact Z0).
  assert (Y : f_y f = 0) by (change (f_y f) with (nth (Z.to_nat (f_rs2 f mod 32)) (x_regs s) 0); rewrite E3; exact Z0).
  f_equal.
  - rewrite E4. unfold f_result. rewrite E5. change (Z.to_nat (0 mod 32)) with 0%nat. change (rd_sel (0 mod 32) (f_imm f) (f_x f) (f_y f) (f_pc f) (f_loaded f)) with 0.
    rewrite <- Z0 at 1. rewrite put_word_same by lia. rewrite <- Z0 at 1. apply put_word_same. lia.
  - unfold f_stored. rewrite E6. change (ram_sel (0 mod 4) (f_y f) (f_loaded f) (f_addr f mod 4)) with (f_loaded f).
    change (f_loaded f) with (nth (f_slot f) (x_ram s) 0). apply put_word_same. rewrite LR. exact SL.
  - rewrite E7, X, Y, E1. change (pc_sel (0 mod 16) 0 0 0 (f_pc f)) with (to_word (f_pc f + 0)). rewrite Z.add_0_r. now apply to_word_small.
Qed.
Lemma f_pc_next rb mb s : 0 <= x_next s < 2 ^ (Z.of_nat rb + 2) -> f_pc (xfields rb mb s) = x_next s.
Proof.
  intro H. unfold xfields. cbn [f_pc]. unfold x_next in *. destruct (x_cycle s =? 0); auto. now apply Z.mod_small.
Qed.
Lemma halt_run rb mb n r m k : (rb <= 30)%nat -> rom_len k r -> (k <= n)%nat -> forall s, x_rom s = pad_roms n r ->
  length (x_regs s) = 32%nat -> nth 0 (x_regs s) 0 = 0 -> length (x_ram s) = (2 ^ mb)%nat ->
  4 * Z.of_nat k <= x_next s < 2 ^ (Z.of_nat rb + 2) -> 0 <= x_cycle s -> x_cycle s + Z.of_nat m < 4294967296 ->
  x_next (xcycles rb mb m s) = x_next s /\ x_regs (xcycles rb mb m s) = x_regs s /\ x_ram (xcycles rb mb m s) = x_ram s.
Proof.
  intros Hrb (L1 & L2 & L3 & L4 & L5 & L6 & L7) Hk. induction m as [|m IH]; intros s R LR Z0 LM HP C0 C; [cbn; auto|].
  cbn [xcycles].
  assert (FP : f_pc (xfields rb mb s) = x_next s) by (apply f_pc_next; lia).
  assert (HS : xcycle rb mb s = {| x_cycle := to_word (x_cycle s + 1); x_rom := x_rom s; x_regs := x_regs s; x_ram := x_ram s;
    x_pc := x_next s; x_last := x_next s |}).
  { rewrite <- FP. apply halt_step; auto; rewrite FP.
    - unfold word. split; [lia|]. apply Z.lt_le_trans with (2 ^ (Z.of_nat rb + 2)); [lia|]. change 4294967296 with (2 ^ 32).
      apply Z.pow_le_mono_r; lia.
    - assert (KK : (k <= Z.to_nat (x_next s / 4))%nat).
      { apply Nat2Z.inj_le. rewrite Z2Nat.id by (apply Z.div_pos; lia). apply Z.div_le_lower_bound; lia. }
      rewrite R. cbn [pad_roms imm_rom rs1_rom rs2_rom rd_rom rdu_rom mu_rom pcu_rom].
      intros xs [<-|[<-|[<-|[<-|[<-|[<-|[<-|[]]]]]]]]; apply rom_rest; lia. }
  assert (NX : x_next (xcycle rb mb s) = x_next s).
  { rewrite HS at 1. unfold x_next at 1. cbn [x_cycle x_last x_pc]. now destruct (_ =? 0). }
  assert (CX : x_cycle (xcycle rb mb s) = x_cycle s + 1).
  { rewrite xcycle_counter. apply to_word_small. unfold word. lia. }
  destruct (IH (xcycle rb mb s)) as (I1 & I2 & I3).
  - now rewrite HS.
  - now rewrite HS.
  - now rewrite HS.
  - now rewrite HS.
  - now rewrite NX.
  - lia.
  - lia.
  - rewrite I1, I2, I3, NX, HS. cbn [x_regs x_ram]. auto.
Qed.

Lemma xcycles_rom rb mb n s : x_rom (xcycles rb mb n s) = x_rom s.
Proof. revert s; induction n; intro s; cbn [xcycles]; [auto|]. now rewrite IHn. Qed.

Lemma halts log dbg debug rom_words rb mb ws ram v0 sk on chk es1 es2 v :
  fits debug rom_words rb mb ws ram -> boots log dbg debug rom_words mb ws ram v0 -> key_ok log sk on ->
  Forall env_ok es1 -> Forall env_ok es2 -> ecycles (Ideal log) sk chk es1 v0 = Some v ->
  Z.of_nat (length es1) + Z.of_nat (length es2) < 4294967296 ->
  4 * Z.of_nat (length ws) <= dec_pc v < 4 * 2 ^ Z.of_nat rb ->
  exists v', ecycles (Ideal log) None chk es2 v = Some v' /\
    dec_regs v' = dec_regs v /\ dec_ram v' = dec_ram v /\ dec_pc v' = dec_pc v.
Proof.
  intros F B K HE1 HE2 E HC HP.
  destruct (reach_shows _ _ _ _ _ _ _ _ _ _ _ _ _ _ F B K HE1 E) as (r & HF & S).
  destruct F as (F1 & F2 & F3 & F4 & F5 & F6 & F7 & F8). destruct (fill_rows _ _ F1 _ HF) as [_ RL].
  set (s0 := xstart rom_words (2 ^ mb) r ram) in *. set (s := xcycles rb mb (length es1) s0) in *.
  assert (C : x_cycle s = Z.of_nat (length es1)).
  { unfold s. rewrite xcycles_counter; [reflexivity|cbn; lia|cbn [x_cycle s0 xstart]; lia]. }
  assert (NX : x_next s = x_pc s).
  { unfold x_next. destruct (Z.eqb_spec (x_cycle s) 0) as [Q|Q]; auto. rewrite C in Q.
    unfold s. destruct es1; [reflexivity|cbn [length] in Q; lia]. }
  assert (K0 : key_ok log None false) by (left; auto).
  destruct (run_succeeds log None false rb mb chk es2 K0 HE2 v s S (or_introl eq_refl)) as (v' & E' & _).
  { right. lia. }
  pose proof (run_shows log None false rb mb chk es2 K0 HE2 v s v' S E') as S'.
  rewrite (shows_pc _ _ _ _ _ S) in *. 
  destruct (xcycles_x0 rb mb (length es1) s0) as [L Z0]; [split; reflexivity|].
  fold s in L, Z0.
  assert (LM : length (x_ram s) = (2 ^ mb)%nat) by apply S.
  destruct (halt_run rb mb rom_words r (length es2) (length ws) F4 RL F2 s) as (I1 & I2 & I3); auto.
  - unfold s. rewrite xcycles_rom. reflexivity.
  - rewrite NX. replace (2 ^ (Z.of_nat rb + 2)) with (4 * 2 ^ Z.of_nat rb); [exact HP|].
    rewrite Z.pow_add_r by lia. change (2 ^ 2) with 4. ring.
  - lia.
  - lia.
  - exists v'. split; auto. rewrite (shows_regs _ _ _ _ _ S), (shows_regs _ _ _ _ _ S'), (shows_ram _ _ _ _ _ S), (shows_ram _ _ _ _ _ S'), (shows_pc _ _ _ _ _ S').
    rewrite I2, I3. split; auto. split; auto. rewrite <- NX, <- I1.
    unfold x_next. destruct (Z.eqb_spec (x_cycle (xcycles rb mb (length es2) s)) 0) as [Q|Q]; auto.
    rewrite xcycles_counter in Q by lia. assert (Q1 : length es1 = 0%nat) by lia. assert (Q2 : length es2 = 0%nat) by lia.
    unfold s. rewrite Q1, Q2. reflexivity.
Qed.

(** ** following the shadow VM from the start *)
Lemma tracks log dbg rom_words rb mb ws ram v0 d0 sk on chk es dn :
  fits true rom_words rb mb ws ram -> boots log dbg true rom_words mb ws ram v0 -> v_debug v0 = Some d0 ->
  key_ok log sk on -> Forall env_ok es -> Z.of_nat (length es) < 4294967296 ->
  dcycles RD_RV32I (length es) d0 = Some dn -> agrees (length es) d0 ->
  exists v, ecycles (Ideal log) sk chk es v0 = Some v /\
    dec_regs v = Some (dregs dn) /\ dec_ram v = Some (dram dn) /\ dec_pc v = dpc dn /\
    v_debug v = Some (if on then dn else d0).
Proof.
  intros F B D K HE HC DC AG. destruct (boots_shows _ _ _ _ _ _ _ _ _ F B) as (r & HF & S & D').
  pose proof F as (F1 & F2 & F3 & F4 & F5 & F6 & F7 & F8). destruct (F8 eq_refl) as [F9 F10].
  rewrite D in D'. injection D' as ->.
  pose proof (start_follows rom_words ws dbg r ram mb F1 HF F9 F10 F7) as FO.
  destruct (follows_run log rb mb sk on chk es K HE v0 _ _ dn S FO AG DC) as (v & E & S' & FO' & DD).
  - cbn [x_cycle xstart]. lia.
  - auto.
  - exists v. split; auto. rewrite (shows_regs _ _ _ _ _ S'), (shows_ram _ _ _ _ _ S'), (shows_pc _ _ _ _ _ S').
    destruct FO' as (_ & -> & -> & NX & _). rewrite D in DD. rewrite DD. repeat split; auto; [|now destruct on].
    rewrite <- NX. unfold x_next. destruct (Z.eqb_spec (x_cycle (xcycles rb mb (length es) (xstart rom_words (2 ^ mb) r ram))) 0) as [Q|Q]; auto.
    rewrite xcycles_counter in Q by (cbn [x_cycle xstart]; lia). cbn [x_cycle xstart] in Q. destruct es; [reflexivity|cbn [length] in Q; lia].
Qed.
Lemma ecycles_app {ct pb fu} (A : alg ct pb fu) sk chk es1 : forall es2 v,
  ecycles A sk chk (es1 ++ es2) v = do v' <- ecycles A sk chk es1 v; ecycles A sk chk es2 v'.
Proof. induction es1 as [|e es1 IH]; intros es2 v; cbn [ecycles app]; [reflexivity|]. destruct (ecycle A sk e chk v); auto. Qed.

(** ** one cycle *)
Lemma step_shows log rb mb sk on chk e v s v' : key_ok log sk on -> env_ok e -> shows log rb mb v s ->
  ecycle (Ideal log) sk e chk v = Some v' -> shows log rb mb v' (xcycle rb mb s).
Proof.
  intros K He S H. apply (run_shows log sk on rb mb chk [e] K (Forall_cons _ He (Forall_nil _)) v s v' S).
  cbn [ecycles]. now rewrite H.
Qed.
Lemma step_ram log rb mb sk on chk e v s v' : key_ok log sk on -> env_ok e -> shows log rb mb v s ->
  ecycle (Ideal log) sk e chk v = Some v' ->
  let f := xfields rb mb s in
  (f_slot f < v_ram_size v)%nat /\
  exists ram ram', dec_ram v = Some ram /\ dec_ram v' = Some ram' /\ length ram' = length ram /\
    (f_mu f mod 4 = 0 -> ram' = ram) /\ (forall k, k <> f_slot f -> nth_error ram' k = nth_error ram k).
Proof.
  intros K He S H. pose proof (step_shows _ _ _ _ _ _ _ _ _ _ K He S H) as S'. cbv zeta.
  assert (LM : length (x_ram s) = (2 ^ mb)%nat) by apply S. assert (RS : v_ram_size v = (2 ^ mb)%nat) by apply S.
  pose proof (slot_lt rb mb s) as SL. split; [rewrite RS; exact SL|].
  exists (x_ram s), (x_ram (xcycle rb mb s)). rewrite (shows_ram _ _ _ _ _ S), (shows_ram _ _ _ _ _ S').
  split; auto. split; auto. unfold xcycle. cbn [x_ram]. split; [|split].
  - apply put_word_length. lia.
  - intro M. unfold f_stored. rewrite M.
    change (ram_sel 0 (f_y (xfields rb mb s)) (f_loaded (xfields rb mb s)) (f_addr (xfields rb mb s) mod 4)) with (nth (f_slot (xfields rb mb s)) (x_ram s) 0).
    apply put_word_same. lia.
  - intros k Hk. set (w := f_stored _). destruct (le_lt_dec (length (x_ram s)) k) as [Q|Q].
    + rewrite (proj2 (nth_error_None (x_ram s) k)) by lia. apply nth_error_None. rewrite put_word_length; lia.
    + rewrite (nth_error_nth' (x_ram s) 0 Q), (nth_error_nth' (put_word _ _ _) 0) by (rewrite put_word_length; lia).
      rewrite put_word_nth by lia. destruct (Nat.eqb_spec k (f_slot (xfields rb mb s))); [contradiction|reflexivity].
Qed.
Lemma step_regs log rb mb sk on chk e v s v' : key_ok log sk on -> env_ok e -> shows log rb mb v s ->
  ecycle (Ideal log) sk e chk v = Some v' ->
  dec_regs v' = Some (put_word (put_word (x_regs s) (Z.to_nat (f_rd (xfields rb mb s) mod 32)) (f_result (xfields rb mb s))) 0 0).
Proof. intros K He S H. now rewrite (shows_regs _ _ _ _ _ (step_shows _ _ _ _ _ _ _ _ _ _ K He S H)). Qed.

(** ids of the M extension after truncation to five bits *)
Lemma m_sel o x y pc ram : word x -> word pc ->
  rd_sel (rd_id (mop_id o) mod 32) 0 x y pc ram =
  match o with DIVU => pc | REM => x | REMU => if signed 32 x <? 0 then 1 else 0 | _ => 0 end.
Proof.
  intros Wx Wp.
  destruct o; match goal with |- context [rd_id ?k mod 32] => let z := eval vm_compute in (rd_id k mod 32) in change (rd_id k mod 32) with z end.
  all: try reflexivity.
  - change (rd_sel 2 0 x y pc ram) with (to_word (pc + 0)). rewrite Z.add_0_r. now apply to_word_small.
  - change (rd_sel 3 0 x y pc ram) with (to_word (x + 0)). rewrite Z.add_0_r. now apply to_word_small.
Qed.
(** addresses a multiple of the RAM's byte size apart fall on the same slot *)
Lemma slot_periodic mb a b : (mb <= 30)%nat -> (4 * 2 ^ Z.of_nat mb | a - b) ->
  to_word (a - 2 ^ 18) / 4 mod 2 ^ Z.of_nat mb = to_word (b - 2 ^ 18) / 4 mod 2 ^ Z.of_nat mb.
Proof.
  intros Hm [q Hq]. set (n := 2 ^ Z.of_nat mb) in *.
  assert (NP : 0 < n) by (apply Z.pow_pos_nonneg; lia).
  assert (HN : 2 ^ 32 = 2 ^ (30 - Z.of_nat mb) * (4 * n)).
  { unfold n. change 4 with (2 ^ 2). rewrite <- !Z.pow_add_r by lia. f_equal. lia. }
  assert (M : forall a, (to_word a / 4) mod n = (a / 4) mod n).
  { intros c. unfold to_word. rewrite (Z.mod_eq c (2 ^ 32)) by lia. rewrite HN at 1.
    set (k := 2 ^ (30 - Z.of_nat mb)).
    replace (c - k * (4 * n) * (c / 2 ^ 32)) with (c + (- (k * n * (c / 2 ^ 32))) * 4) by ring.
    rewrite Z.div_add by lia. replace (- (k * n * (c / 2 ^ 32))) with ((- (k * (c / 2 ^ 32))) * n) by ring.
    apply Z.mod_add. lia. }
  rewrite !M. replace (a - 2 ^ 18) with (b - 2 ^ 18 + (q * n) * 4) by lia. rewrite Z.div_add by lia. apply Z.mod_add. lia.
Qed.
Lemma step_pc log rb mb sk on chk e v s v' : key_ok log sk on -> env_ok e -> shows log rb mb v s ->
  ecycle (Ideal log) sk e chk v = Some v' -> v_cycle v <> 0 ->
  pack_bits (v_pcp v') = dec_pc v mod (4 * 2 ^ Z.of_nat rb).
Proof.
  intros K He S H C. pose proof (step_shows _ _ _ _ _ _ _ _ _ _ K He S H) as S'.
  assert (P : prepared (v_pcp v') (x_last (xcycle rb mb s))) by apply S'. destruct P as [_ ->].
  assert (CC : v_cycle v = x_cycle s) by apply S. rewrite CC in C.
  rewrite (shows_pc _ _ _ _ _ S). unfold xcycle. cbn [x_last]. unfold xfields. cbn [f_pc].
  rewrite (proj2 (Z.eqb_neq _ _) C). f_equal. rewrite Z.pow_add_r by lia. change (2 ^ 2) with 4. ring.
Qed.
(** a row without register, memory or jump operation *)
Lemma nop_step rb mb s : length (x_regs s) = 32%nat -> nth 0 (x_regs s) 0 = 0 -> length (x_ram s) = (2 ^ mb)%nat ->
  let f := xfields rb mb s in
  f_rd f = 0 -> f_rdu f = rd_id RNONE -> f_mu f = ram_id MNONE -> f_pcu f = pc_id PNONE ->
  x_regs (xcycle rb mb s) = x_regs s /\ x_ram (xcycle rb mb s) = x_ram s /\ x_pc (xcycle rb mb s) = to_word (f_pc f + 4).
Proof.
  intros L Z0 LR f E4 E5 E6 E7. pose proof (slot_lt rb mb s) as SL. fold f in SL. unfold xcycle. fold f. cbn [x_regs x_ram x_pc]. split; [|split].
  - rewrite E4. unfold f_result. rewrite E5. change (Z.to_nat (0 mod 32)) with 0%nat.
    change (rd_sel (rd_id RNONE mod 32) (f_imm f) (f_x f) (f_y f) (f_pc f) (f_loaded f)) with 0.
    rewrite <- Z0 at 1. rewrite put_word_same by lia. rewrite <- Z0 at 1. apply put_word_same. lia.
  - unfold f_stored. rewrite E6. change (ram_sel (ram_id MNONE mod 4) (f_y f) (f_loaded f) (f_addr f mod 4)) with (nth (f_slot f) (x_ram s) 0).
    apply put_word_same. rewrite LR. exact SL.
  - rewrite E7. reflexivity.
Qed.
Lemma system_row dbg w : word w -> w mod 128 = 0x73 ->
  components dbg w = Some (0, 0, 0, 0, rd_id RNONE, ram_id MNONE, pc_id PNONE).
Proof.
  intros W H. unfold components, get_imm, get_registers, get_opid.
  assert (T : get_type w = Some TNONE).
  { unfold get_type. cbv zeta. unfold get_opcode, getf, OPCODEMASK, OPCODESHIFT, shr32. rewrite Z.shiftr_0_r.
    change 127 with (Z.ones 7). rewrite Z.land_ones by lia. change (2 ^ 7) with 128. rewrite H. reflexivity. }
  rewrite T. reflexivity.
Qed.
Lemma step_words log rb mb sk on chk e v s v' : key_ok log sk on -> env_ok e -> shows log rb mb v s ->
  ecycle (Ideal log) sk e chk v = Some v' -> word (f_pc (xfields rb mb s)) /\ word (f_x (xfields rb mb s)).
Proof.
  intros K He S H. pose proof (step_shows _ _ _ _ _ _ _ _ _ _ K He S H) as S'. split; apply is_word_word.
  - eapply prepared_word. assert (P : prepared (v_pcp v') (x_last (xcycle rb mb s))) by apply S'. exact P.
  - assert (HR : holds log (v_regs v) (x_regs s)) by apply S. unfold xfields. cbn [f_x]. eapply holds_word. exact HR.
Qed.
