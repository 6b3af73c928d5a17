(** * C59, C60: what the encrypted VM computes for every program and every number of cycles *)
Require Import ZArith List Bool Lia.
Require Import Verif.Word Verif.Isa Verif.Codec Verif.Bdd Verif.DecodeSpec Verif.DecodeFacts Verif.EvalSpec Verif.EvalFacts Verif.RunSpec
  Verif.DebugVM Verif.Glwe Verif.EncMem Verif.MemSpec Verif.EncVM Verif.EncSpec
  Verif.EncCycle Verif.EncTrack Verif.EncLoad Verif.EncRun Verif.ExactSpec Verif.ExactFacts.
Require Verif.PropEnc Verif.PropCodec.
Import ListNotations.
Ltac Zify.zify_post_hook ::= idtac.
Open Scope Z_scope.

(** what the owner of the key decrypts is machine state [q] *)
Definition decrypts (mb : nat) (v : evm poly bool (list Z)) (q : qm) : Prop :=
  (exists regs, dec_regs v = Some regs /\ length regs = 32%nat /\
     forall r, reg r -> nth_error regs (Z.to_nat r) = Some (get (q_rf q) r)) /\
  (exists ram, dec_ram v = Some ram /\ length ram = (2 ^ mb)%nat /\
     forall k, 0 <= k < 2 ^ Z.of_nat mb -> nth_error ram (Z.to_nat k) = Some (q_ram q k)) /\
  dec_pc v = q_pc q.

(** C59.  No hypothesis restricts the program beyond having been accepted, the
    RAM contents, the number of cycles, the build, the thread schedule, or
    whether the debugging key is given. *)
Theorem C59_exact_machine :
  forall log dbg debug rom_words rb mb ws ram v0 sk on chk es v,
    fits debug rom_words rb mb ws ram -> boots log dbg debug rom_words mb ws ram v0 -> key_ok log sk on -> Forall env_ok es ->
    ecycles (Ideal log) sk chk es v0 = Some v ->
    decrypts mb v (q_run rb mb ws (length es) (q_start ram)).
Proof.
  intros log dbg debug rom_words rb mb ws ram v0 sk on chk es v F B K HE E.
  destruct (boots_shows _ _ _ _ _ _ _ _ _ F B) as (r & HF & S & _).
  pose proof (run_shows log sk on rb mb chk es K HE v0 _ v S E) as S'.
  destruct F as (F1 & F2 & F3 & F4 & F5 & F6 & F7 & F8).
  pose proof (q_run_ok log rb mb rom_words dbg ws r F1 HF F2 sk on chk es K HE v0 _ (q_start ram) v S eq_refl
    (start_same rom_words (2 ^ mb) r ram F6) E) as (Q1 & Q2 & Q3 & Q4 & Q5 & Q6).
  set (s := xcycles rb mb (length es) _) in *.
  assert (LM : length (x_ram s) = (2 ^ mb)%nat) by apply S'.
  split; [|split].
  - exists (x_regs s). split; [exact (shows_regs _ _ _ _ _ S')|]. split; [exact Q4|].
    intros q Hq. rewrite <- (Q5 q Hq). apply nth_error_nth'. unfold reg in Hq. lia.
  - exists (x_ram s). split; [exact (shows_ram _ _ _ _ _ S')|]. split; [exact LM|].
    intros k Hk. assert (Hk' : 0 <= k < Z.of_nat (length (x_ram s))) by (rewrite LM, pow_nat; exact Hk).
    rewrite <- (Q6 k Hk'). apply nth_error_nth'. lia.
  - rewrite (shows_pc _ _ _ _ _ S'). exact Q3.
Qed.
Print Assumptions C59_exact_machine.

(** Without the debugging key a run can only fail by overflow of the cycle
    counter, in a build with overflow checks. *)
Theorem C59_runs_complete :
  forall log dbg debug rom_words rb mb ws ram v0 chk es,
    fits debug rom_words rb mb ws ram -> boots log dbg debug rom_words mb ws ram v0 -> Forall env_ok es ->
    ((exists v, ecycles (Ideal log) None chk es v0 = Some v) <-> (chk = false \/ Z.of_nat (length es) < 2 ^ 32)).
Proof.
  intros log dbg debug rom_words rb mb ws ram v0 chk es F B HE.
  destruct (boots_shows _ _ _ _ _ _ _ _ _ F B) as (r & HF & S & _).
  assert (K : key_ok log None false) by (left; auto).
  split.
  - intros (v & E). destruct chk; [right|left; reflexivity].
    assert (G : forall es, Forall env_ok es -> forall v0 s v, shows log rb mb v0 s -> x_cycle s < 2 ^ 32 ->
              ecycles (Ideal log) None true es v0 = Some v -> x_cycle s + Z.of_nat (length es) < 2 ^ 32).
    { clear. induction 1 as [|e es He _ IH]; intros v0 s v S C E; [cbn; lia|].
      cbn [ecycles] in E. destruct (ecycle (Ideal log) None e true v0) as [v1|] eqn:E1; [|discriminate].
      assert (K : key_ok log None false) by (left; auto).
      pose proof (step_shows _ _ _ _ _ _ _ _ _ _ K He S E1) as S1.
      destruct (cycle_ok log None false e K He rb mb true v0 s S) as (mk & _ & E2). rewrite E1 in E2.
      destruct (xdebug rb mb false s (v_debug v0)); [|discriminate]. cbn [negb orb] in E2.
      destruct (Z.ltb_spec (x_cycle s + 1) 4294967296) as [L|L]; [|discriminate].
      assert (0 <= x_cycle s) by apply S.
      assert (CX : x_cycle (xcycle rb mb s) = x_cycle s + 1).
      { rewrite xcycle_counter. apply to_word_small. unfold word. lia. }
      specialize (IH v1 _ v S1 ltac:(lia) E). rewrite CX in IH. cbn [length]. lia. }
    specialize (G es HE v0 _ v S ltac:(cbn; lia) E). cbn [x_cycle xstart] in G. lia.
  - intro C. destruct (run_succeeds log None false rb mb chk es K HE v0 _ S (or_introl eq_refl)) as (v & E & _); [|eauto].
    cbn [x_cycle xstart]. destruct C as [C|C]; [left; exact C|right; lia].
Qed.
Print Assumptions C59_runs_complete.

(** the parser accepts exactly the words that have a meaning *)
Theorem C59_accepted : forall dbg w, word w -> (accepted dbg w <-> action_of w <> None).
Proof.
  intros dbg w W. split.
  - intros (o & r & imm & E1 & E2 & E3). destruct o as [[o1 o2] o3], r as [[r2 r1] rd].
    assert (C : components dbg w = Some (imm, r1, r2, rd, rd_id o1, ram_id o2, pc_id o3)).
    { unfold components. now rewrite E3, E2, E1. }
    pose proof (act_row dbg w _ W C) as A. now destruct (action_of w).
  - intro A. apply PropCodec.C04_accepted_exactly; [exact W|]. unfold action_of in A.
    destruct (isa_of w) as [i|] eqn:E.
    + left. destruct (isa_of_sound w i W E). exists i. auto.
    + right. unfold lenient. revert A. cbv zeta.
      destruct (Z.eqb_spec (fld 6 0 w) 19) as [H|H].
      * destruct (Z.eqb_spec (fld 14 12 w) 1) as [H1|H1]; [|congruence]. intros _. left. repeat split; auto.
        intro H7. revert E. unfold isa_of. rewrite H, H1, H7. cbn. discriminate.
      * destruct (Z.eqb_spec (fld 6 0 w) 103) as [H1|H1].
        -- intros _. right; left. split; auto. intro H3. revert E. unfold isa_of. rewrite H1, H3. cbn. discriminate.
        -- destruct (Z.eqb_spec (fld 6 0 w) 115); [auto|congruence].
Qed.
Print Assumptions C59_accepted.

(** Everything that is unusual about the machine in one program: a store of a
    word, LB of a negative byte and at an odd address, SH to an odd address, MUL
    and REM, an SLLI with a funct7, an ECALL, a JAL of more than 2^19 bytes back
    into the (wrapping) program. *)
Definition ex_odd : list Z :=
  map encode [LUI 5 64; OPI ADDI 6 0 (-3); STORE SW 5 6 0; LOAD LB 7 5 2; OPM MUL 8 6 6; OPM REM 9 6 6; STORE SH 5 5 5]
  ++ [0x02331513 (* slli x10, x6, 3 with funct7 = 1 *); 0x73 (* ecall *)] ++ map encode [JAL 11 (2 ^ 19 + 4); OPI ADDI 12 0 1].
Example C59_case :
  let q := q_run 4 4 ex_odd 11 (q_start (repeat 0x11223344 16)) in
  Forall (fun w => action_of w <> None) ex_odd /\
  fits false 11 4 4 ex_odd (repeat 0x11223344 16) /\
  map (get (q_rf q)) [5; 6; 7; 8; 9; 10; 11; 12] = [0x40000; 0xFFFFFFFD; 0xFD; 0; 0xFFFFFFFD; 0xFFFFFFE8; 40; 1] /\
  map (q_ram q) [0; 1; 2] = [0xFFFFFFFD; 0; 0x11223344] /\ q_pc q = 44 /\
  q_pc (q_run 4 4 ex_odd 10 (q_start (repeat 0x11223344 16))) = to_word (40 - 2 ^ 19).
Proof.
  split; [repeat (apply Forall_cons; [vm_compute; discriminate|]); apply Forall_nil|].
  split; [|vm_compute; auto].
  unfold fits. split; [|split; [cbn; lia|split; [reflexivity|split; [cbn; lia|split; [|split; [cbn; lia|split; [cbn; lia|discriminate]]]]]]].
  - let l := eval vm_compute in ex_odd in change ex_odd with l.
    repeat (apply Forall_cons; [unfold word; lia|]); apply Forall_nil.
  - apply Forall_forall. intros x H. apply repeat_spec in H. subst. unfold word. lia.
Qed.

(** C60.  Full statement: in every cycle the VM executes the instruction at its
    pc, however many cycles have gone by.  False when the 32-bit counter comes
    round to zero: the cycle then repeats the previous instruction
    ([if self.cycle != 0], fhevm/src/interpreter.rs:533). *)
Definition ex_loop : list Z := asm [OPI ADDI 1 1 1; OPI ADDI 2 2 1; JAL 0 (-8)].
Lemma q_step_at k i prog rb mb s pc :
  pc = (if q_cycle s mod 2 ^ 32 =? 0 then q_last s else q_pc s mod (4 * 2 ^ Z.of_nat rb)) -> Z.to_nat (pc / 4) = k ->
  match nth_error prog k with Some w => action_of w | None => None end = Some (Exec i) ->
  q_step rb mb prog s = let '(pc', rf', ram') := exec mb i pc (q_rf s) (q_ram s) in
    {| q_cycle := q_cycle s + 1; q_last := pc; q_pc := pc'; q_rf := rf'; q_ram := ram' |}.
Proof.
  intros E1 E2 E3. unfold q_step. cbv zeta. rewrite <- E1, E2. destruct (nth_error prog k) as [w|]; [|discriminate].
  rewrite E3. reflexivity.
Qed.
Lemma loop_round mb s : q_pc s = 0 -> 0 <= q_cycle s -> q_cycle s + 2 < 2 ^ 32 -> (q_cycle s = 0 -> q_last s = 0) ->
  let s' := q_run 2 mb ex_loop 3 s in
  q_cycle s' = q_cycle s + 3 /\ q_pc s' = 0 /\ get (q_rf s') 2 = to_word (get (q_rf s) 2 + 1).
Proof.
  intros P C0 C L. cbn [q_run].
  assert (S1 : q_step 2 mb ex_loop s = {| q_cycle := q_cycle s + 1; q_last := 0; q_pc := 4;
     q_rf := put (q_rf s) 1 (to_word (get (q_rf s) 1 + 1)); q_ram := q_ram s |}).
  { rewrite (q_step_at 0 (OPI ADDI 1 1 1) ex_loop 2 mb s 0); [reflexivity| |reflexivity|reflexivity].
    rewrite Z.mod_small by lia. destruct (Z.eqb_spec (q_cycle s) 0); [now rewrite L|now rewrite P]. }
  rewrite S1. set (s1 := QM _ _ _ _ _).
  assert (S2 : q_step 2 mb ex_loop s1 = {| q_cycle := q_cycle s1 + 1; q_last := 4; q_pc := 8;
     q_rf := put (q_rf s1) 2 (to_word (get (q_rf s1) 2 + 1)); q_ram := q_ram s1 |}).
  { rewrite (q_step_at 1 (OPI ADDI 2 2 1) ex_loop 2 mb s1 4); [reflexivity| |reflexivity|reflexivity].
    cbn [q_cycle q_pc s1]. rewrite Z.mod_small by lia. destruct (Z.eqb_spec (q_cycle s + 1) 0); [lia|reflexivity]. }
  rewrite S2. set (s2 := QM _ _ _ _ _).
  assert (S3 : q_step 2 mb ex_loop s2 = {| q_cycle := q_cycle s2 + 1; q_last := 8; q_pc := 0;
     q_rf := put (q_rf s2) 0 12; q_ram := q_ram s2 |}).
  { rewrite (q_step_at 2 (JAL 0 (-8)) ex_loop 2 mb s2 8); [reflexivity| |reflexivity|reflexivity].
    cbn [q_cycle q_pc s2 s1]. rewrite Z.mod_small by lia. destruct (Z.eqb_spec (q_cycle s + 1 + 1) 0); [lia|reflexivity]. }
  rewrite S3. cbn [q_cycle q_pc q_rf]. split; [cbn [q_cycle s2 s1]; lia|]. split; [reflexivity|].
  rewrite put0. reflexivity.
Qed.
Lemma loop_rounds mb k : forall s, q_pc s = 0 -> 0 <= q_cycle s -> q_cycle s + Z.of_nat (k * 3) = 2 ^ 32 - 1 -> (q_cycle s = 0 -> q_last s = 0) ->
  get (q_rf (q_run 2 mb ex_loop (k * 3 + 2) s)) 2 = to_word (get (q_rf s) 2 + Z.of_nat k) \/ k = 0%nat.
Proof.
  induction k as [|k IH]; intros s P C0 C L; [auto|]. left.
  replace (S k * 3 + 2)%nat with (3 + (k * 3 + 2))%nat by lia.
  assert (SP : forall n m s, q_run 2 mb ex_loop (n + m) s = q_run 2 mb ex_loop m (q_run 2 mb ex_loop n s)).
  { clear. induction n; intros; cbn [Nat.add q_run]; auto. }
  rewrite SP. destruct (loop_round mb s P C0 ltac:(lia) L) as (R1 & R2 & R3). cbv zeta in R1, R2, R3.
  set (s' := q_run 2 mb ex_loop 3 s) in *.
  destruct (Nat.eq_dec k 0) as [->|N].
  - cbn [Nat.mul Nat.add q_run].
    assert (S1 : q_step 2 mb ex_loop s' = {| q_cycle := 2 ^ 32; q_last := 0; q_pc := 4;
      q_rf := put (q_rf s') 1 (to_word (get (q_rf s') 1 + 1)); q_ram := q_ram s' |}).
    { rewrite (q_step_at 0 (OPI ADDI 1 1 1) ex_loop 2 mb s' 0); [|rewrite R1, R2, Z.mod_small by lia;
        destruct (Z.eqb_spec (q_cycle s + 3) 0); [lia|reflexivity]|reflexivity|reflexivity].
      rewrite R1. replace (q_cycle s + 3 + 1) with (2 ^ 32) by lia. reflexivity. }
    rewrite S1. set (s1 := QM _ _ _ _ _).
    rewrite (q_step_at 0 (OPI ADDI 1 1 1) ex_loop 2 mb s1 0); [|reflexivity|reflexivity|reflexivity].
    cbn [exec isa_step m_pc m_rf]. cbn [q_rf s1].
    change (get (put (put (q_rf s') 1 (to_word (get (q_rf s') 1 + 1))) 1 _) 2) with (get (q_rf s') 2). exact R3.
  - destruct (IH s' R2 ltac:(lia)) as [E|E]; [lia|intros; lia| |contradiction].
    rewrite E, R3. unfold to_word. rewrite Zplus_mod_idemp_l. f_equal. lia.
Qed.
Lemma loop_isa k : forall m, m_pc m = 0 ->
  exists m', isa_run ex_loop (k * 3 + 2) m = Some m' /\ get (m_rf m') 2 = to_word (get (m_rf m) 2 + Z.of_nat k + 1).
Proof.
  assert (F : forall pc i, fetch ex_loop pc = Some i -> forall m n, m_pc m = pc -> isa_run ex_loop (S n) m = isa_run ex_loop n (isa_step i m)).
  { intros pc i H m n E. cbn [isa_run]. rewrite E, H. reflexivity. }
  assert (F0 : fetch ex_loop 0 = Some (OPI ADDI 1 1 1)) by reflexivity.
  assert (F4 : fetch ex_loop 4 = Some (OPI ADDI 2 2 1)) by reflexivity.
  assert (F8 : fetch ex_loop 8 = Some (JAL 0 (-8))) by reflexivity.
  induction k as [|k IH]; intros m P.
  - exists (isa_step (OPI ADDI 2 2 1) (isa_step (OPI ADDI 1 1 1) m)). split.
    + cbn [Nat.mul Nat.add]. rewrite (F 0 _ F0 m _ P), (F 4 _ F4); [reflexivity|]. cbn [isa_step m_pc]. now rewrite P.
    + replace (get (m_rf m) 2 + Z.of_nat 0 + 1) with (get (m_rf m) 2 + 1) by lia. reflexivity.
  - replace (S k * 3 + 2)%nat with (S (S (S (k * 3 + 2)))) by lia.
    set (m3 := isa_step (JAL 0 (-8)) (isa_step (OPI ADDI 2 2 1) (isa_step (OPI ADDI 1 1 1) m))).
    assert (P3 : m_pc m3 = 0) by (cbn [m3 isa_step m_pc]; rewrite P; reflexivity).
    destruct (IH m3 P3) as (m' & R & G). exists m'. split.
    + rewrite (F 0 _ F0 m _ P), (F 4 _ F4), (F 8 _ F8); [exact R|cbn [isa_step m_pc]; now rewrite P|cbn [isa_step m_pc]; now rewrite P].
    + rewrite G. assert (E : get (m_rf m3) 2 = to_word (get (m_rf m) 2 + 1)).
      { cbn [m3 isa_step m_rf]. rewrite put0. reflexivity. }
      rewrite E. unfold to_word. rewrite <- Z.add_assoc, Zplus_mod_idemp_l. f_equal. lia.
Qed.
Theorem C60_counter_wrap_refuted :
  exists ws ram v0 es v regs m,
    fits false 3 2 1 ws ram /\ boots 1 true false 3 1 ws ram v0 /\ Forall env_ok es /\
    ecycles (Ideal 1) None false es v0 = Some v /\ dec_regs v = Some regs /\
    isa_run ws (length es) {| m_pc := 0; m_rf := fun _ => 0; m_mem := fun _ => 0 |} = Some m /\
    nth_error regs 2 <> Some (get (m_rf m) 2).
Proof.
  assert (HK : exists K, Z.of_nat K = 1431655765) by (exists (Z.to_nat 1431655765); apply Z2Nat.id; lia).
  destruct HK as (K & HK).
  assert (F : fits false 3 2 1 ex_loop [0; 0]).
  { unfold fits. split; [|split; [cbn; lia|split; [reflexivity|split; [cbn; lia|split; [|split; [cbn; lia|split; [cbn; lia|discriminate]]]]]]].
    - let l := eval vm_compute in ex_loop in change ex_loop with l.
      repeat (apply Forall_cons; [unfold word; lia|]); apply Forall_nil.
    - repeat (apply Forall_cons; [unfold word; lia|]); apply Forall_nil. }
  destruct (boots_exists 1 true false 3 2 1 ex_loop [0; 0] F) as (v0 & B).
  { repeat (apply Forall_cons; [apply C59_accepted; [unfold word; vm_compute; intuition discriminate|vm_compute; discriminate]|]). apply Forall_nil. }
  set (es := repeat (PropEnc.ex_env 2) (K * 3 + 2)).
  assert (HE : Forall env_ok es) by apply PropEnc.ex_envs.
  assert (LE : length es = (K * 3 + 2)%nat) by apply repeat_length.
  destruct (proj2 (C59_runs_complete 1 true false 3 2 1 ex_loop [0; 0] v0 false es F B HE) (or_introl eq_refl)) as (v & E).
  destruct (C59_exact_machine _ _ _ _ _ _ _ _ _ None false _ _ _ F B (or_introl (conj eq_refl eq_refl)) HE E) as ((regs & D & L & R) & _ & _).
  destruct (loop_isa K {| m_pc := 0; m_rf := fun _ => 0; m_mem := fun _ => 0 |} eq_refl) as (m & I1 & I2).
  exists ex_loop, [0; 0], v0, es, v, regs, m. rewrite LE. repeat (split; [assumption|]).
  change 2%nat with (Z.to_nat 2). rewrite R by (unfold reg; lia). rewrite LE, I2.
  destruct (loop_rounds 1 K (q_start [0; 0])) as [Q|Q]; try reflexivity; [cbn [q_cycle q_start]; lia| |lia].
  rewrite Q. cbn [m_rf q_rf q_start get Z.eqb]. rewrite HK. vm_compute. discriminate.
Qed.
Print Assumptions C60_counter_wrap_refuted.
(** The exact rule: every cycle but those whose number is a positive multiple of
    2^32 works at the pc, those work where the last one did.  [v_pcp] is the
    address a cycle worked at. *)
Theorem C60_where :
  forall log dbg debug rom_words rb mb ws ram v0 sk on chk es e v v',
    fits debug rom_words rb mb ws ram -> boots log dbg debug rom_words mb ws ram v0 -> key_ok log sk on -> Forall env_ok es -> env_ok e ->
    ecycles (Ideal log) sk chk es v0 = Some v -> ecycle (Ideal log) sk e chk v = Some v' ->
    pack_bits (v_pcp v') =
      if (Z.of_nat (length es) mod 2 ^ 32 =? 0) && negb (Z.of_nat (length es) =? 0)
      then pack_bits (v_pcp v) else dec_pc v mod (4 * 2 ^ Z.of_nat rb).
Proof.
  intros log dbg debug rom_words rb mb ws ram v0 sk on chk es e v v' F B K HE He E E'.
  destruct (boots_shows _ _ _ _ _ _ _ _ _ F B) as (r & HF & S & _).
  set (s0 := xstart rom_words (2 ^ mb) r ram) in *.
  pose proof (run_shows log sk on rb mb chk es K HE v0 _ v S E) as S1.
  pose proof (step_shows _ _ _ _ _ _ _ _ _ _ K He S1 E') as S2.
  assert (C : forall n s, x_cycle (xcycles rb mb n s) = if (n =? 0)%nat then x_cycle s else to_word (x_cycle s + Z.of_nat n)).
  { clear. induction n as [|n IH]; intro s; [reflexivity|]. cbn [xcycles]. rewrite IH, xcycle_counter. cbn [Nat.eqb].
    destruct (Nat.eqb_spec n 0) as [N|N]; [rewrite N; f_equal; lia|]. unfold to_word. rewrite Zplus_mod_idemp_l. f_equal. lia. }
  assert (P1 : pack_bits (v_pcp v) = x_last (xcycles rb mb (length es) s0)).
  { assert (P : prepared (v_pcp v) (x_last (xcycles rb mb (length es) s0))) by apply S1. apply P. }
  assert (P2 : pack_bits (v_pcp v') = x_last (xcycle rb mb (xcycles rb mb (length es) s0))).
  { assert (P : prepared (v_pcp v') (x_last (xcycle rb mb (xcycles rb mb (length es) s0)))) by apply S2. apply P. }
  rewrite P1, P2, (shows_pc _ _ _ _ _ S1). specialize (C (length es) s0). cbn [x_cycle xstart s0] in C. fold s0 in C.
  set (s := xcycles rb mb (length es) s0) in *. unfold xcycle. cbn [x_last]. unfold xfields. cbn [f_pc]. rewrite C, pow_rb2.
  rewrite Z.add_0_l. unfold to_word.
  destruct (Nat.eqb_spec (length es) 0) as [N|N].
  - unfold s. rewrite N. cbn [xcycles]. reflexivity.
  - destruct (Z.eqb_spec (Z.of_nat (length es)) 0) as [Q|_]; [lia|]. rewrite andb_true_r. reflexivity.
Qed.
Print Assumptions C60_where.
Example C60_case :
  let s := q_run 2 1 ex_loop 7 (q_start []) in
  q_pc s = 4 /\ q_last s = 0 /\ map (get (q_rf s)) [1; 2] = [3; 2] /\
  (* the same state, with the counter about to come round *)
  let t := q_step 2 1 ex_loop {| q_cycle := 2 ^ 32; q_last := 0; q_pc := 4; q_rf := q_rf s; q_ram := q_ram s |} in
  q_last t = 0 /\ map (get (q_rf t)) [1; 2] = [4; 2].
Proof. vm_compute. auto. Qed.
