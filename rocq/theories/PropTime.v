(** * C84, C85: the time of a cycle *)
Require Import ZArith List Bool Lia.
Require Import Verif.Flow Verif.Depend Verif.CycleTime Verif.TimeSpec.
Import ListNotations.
Ltac Zify.zify_post_hook ::= idtac.
Open Scope Z_scope.

(** the graph of C78 *)
Definition graph := doc_edges ++ more_edges.
Definition in_order : list (block * block) :=
  [(READ_INST, READ_REG); (READ_INST, READ_RAM); (READ_INST, UPDATE_REG); (READ_INST, UPDATE_RAM); (READ_INST, UPDATE_PC);
   (READ_REG, READ_RAM); (READ_REG, UPDATE_REG); (READ_REG, UPDATE_RAM); (READ_REG, UPDATE_PC);
   (READ_RAM, UPDATE_REG); (READ_RAM, UPDATE_RAM)].
Definition next_order : list (block * block) :=
  [(UPDATE_PC, READ_INST); (UPDATE_PC, UPDATE_REG); (UPDATE_PC, UPDATE_PC); (UPDATE_REG, READ_REG); (UPDATE_RAM, READ_RAM); (READ_RAM, READ_RAM)].

Definition beq (a b : block) : bool :=
  match a, b with
  | READ_INST, READ_INST | READ_REG, READ_REG | READ_RAM, READ_RAM | UPDATE_REG, UPDATE_REG | UPDATE_RAM, UPDATE_RAM | UPDATE_PC, UPDATE_PC => true
  | _, _ => false
  end.
Lemma beq_ok a b : beq a b = true <-> a = b.
Proof. destruct a, b; cbn; intuition congruence. Qed.
Lemma needs_iff b c : needs graph b c <-> In (b, c) in_order.
Proof.
  split.
  - intros (N & m & n & H & E1 & E2). unfold graph, doc_edges, more_edges in H. cbn [In app] in H.
    repeat (destruct H as [H|H]; [injection H as <- <-; cbn in E1, E2; try discriminate; injection E1 as <-; injection E2 as <-; try (contradiction N; reflexivity); unfold in_order; cbn [In]; tauto|]). destruct H.
  - intro H. unfold in_order in H. cbn [In] in H.
    repeat (destruct H as [H|H]; [injection H as <- <-; split; [discriminate|]|]); try (destruct H).
    + exists RS1_INDEX, RS1. cbn; tauto.
    + exists IMM, RAM_ADDRESS. cbn; tauto.
    + exists IMM, POSSIBLE_RD_VALS. cbn; tauto.
    + exists MU, NEW_RAM_VAL. cbn; tauto.
    + exists IMM, NEW_PC_VAL. cbn; tauto.
    + exists RS1, RAM_ADDRESS. cbn; tauto.
    + exists RS1, POSSIBLE_RD_VALS. cbn; tauto.
    + exists RS2, POSSIBLE_RAM_VALS. cbn; tauto.
    + exists RS1, NEW_PC_VAL. cbn; tauto.
    + exists RAM_VAL, POSSIBLE_RD_VALS. cbn; tauto.
    + exists RAM_VAL, POSSIBLE_RAM_VALS. cbn; tauto.
Qed.
Lemma next_iff b c : needs_next graph b c <-> In (b, c) next_order.
Proof.
  split.
  - intros (m & x & y & n & H1 & HC & H2 & E1 & E2). unfold graph, doc_edges, more_edges in H1, H2. cbn [In app] in H1, H2.
    destruct HC as [HC|[HC|HC]]; injection HC as -> ->;
      repeat (destruct H1 as [H1|H1]; [first [discriminate H1 | injection H1 as <-; cbn in E1; try discriminate; injection E1 as <-]|]); try (destruct H1);
      repeat (destruct H2 as [H2|H2]; [first [discriminate H2 | injection H2 as <-; cbn in E2; try discriminate; injection E2 as <-; unfold next_order; cbn [In]; tauto]|]); try (destruct H2).
  - intro H. unfold next_order in H. cbn [In] in H. unfold needs_next, carried.
    repeat (destruct H as [H|H]; [injection H as <- <-|]); try (destruct H).
    + exists NEW_PC_VAL, PC_AFTER, PC, IMM. cbn; tauto.
    + exists NEW_PC_VAL, PC_AFTER, PC, POSSIBLE_RD_VALS. cbn; tauto.
    + exists NEW_PC_VAL, PC_AFTER, PC, NEW_PC_VAL. cbn; tauto.
    + exists RD, REGISTERS_AFTER, REGISTERS, RS1. cbn; tauto.
    + exists NEW_RAM_VAL, RAM_AFTER, RAM, RAM_VAL. cbn; tauto.
    + exists RAM_ADDRESS, RAM_AFTER, RAM, RAM_VAL. cbn; tauto.
Qed.

Section Durations.
Variable d : block -> Z.
Hypothesis D0 : forall b, 0 <= d b.
Definition longest : Z := d READ_INST + d READ_REG + Z.max (d UPDATE_PC) (d READ_RAM + Z.max (d UPDATE_REG) (d UPDATE_RAM)).
Definition asap (b : block) : Z :=
  match b with
  | READ_INST => 0
  | READ_REG => d READ_INST
  | READ_RAM | UPDATE_PC => d READ_INST + d READ_REG
  | UPDATE_REG | UPDATE_RAM => d READ_INST + d READ_REG + d READ_RAM
  end.
Lemma asap_valid : valid graph d asap.
Proof.
  pose proof (D0 READ_INST). pose proof (D0 READ_REG). pose proof (D0 READ_RAM). pose proof (D0 UPDATE_REG).
  split; [destruct b; cbn [asap]; lia|]. intros b c H3. apply needs_iff in H3. unfold in_order in H3. cbn [In] in H3.
  repeat (destruct H3 as [H3|H3]; [injection H3 as <- <-; cbn [asap]; lia|]). destruct H3.
Qed.
Lemma asap_done : done_by d asap longest.
Proof.
  pose proof (D0 READ_INST). pose proof (D0 READ_REG). pose proof (D0 READ_RAM). pose proof (D0 UPDATE_REG). pose proof (D0 UPDATE_RAM). pose proof (D0 UPDATE_PC).
  unfold done_by, longest. destruct b; cbn [asap]; lia.
Qed.
Lemma path_bound st t : valid graph d st -> done_by d st t -> forall l, path graph l -> forall b r, l = b :: r -> st b + total d l <= t.
Proof.
  intros [_ V] DB l H. induction H as [b|b c l N P IH]; intros b' r E; injection E as <- <-.
  - cbn. specialize (DB b). lia.
  - specialize (IH c l eq_refl). specialize (V b c N). cbn [total fold_right] in *. lia.
Qed.
End Durations.

(** C84.  With the exact dependency graph (C78) and unlimited parallelism, one
    cycle needs the time of the longest path, and no less: that path's time is the
    smallest time by which some schedule is done. *)
Theorem C84_longest_path :
  forall d, (forall b, 0 <= d b) ->
    exists l, path graph l /\
      (forall l', path graph l' -> total d l' <= total d l) /\
      (exists st, valid graph d st /\ done_by d st (total d l)) /\
      (forall st t, valid graph d st -> done_by d st t -> total d l <= t) /\
      total d l = d READ_INST + d READ_REG + Z.max (d UPDATE_PC) (d READ_RAM + Z.max (d UPDATE_REG) (d UPDATE_RAM)).
Proof.
  intros d D0.
  assert (PE : exists l, path graph l /\ total d l = longest d).
  { assert (N : forall b c, In (b, c) in_order -> needs graph b c) by (intros; now apply needs_iff).
    unfold longest. destruct (Z.max_spec (d UPDATE_PC) (d READ_RAM + Z.max (d UPDATE_REG) (d UPDATE_RAM))) as [[_ ->]|[_ ->]].
    - destruct (Z.max_spec (d UPDATE_REG) (d UPDATE_RAM)) as [[_ ->]|[_ ->]].
      + exists [READ_INST; READ_REG; READ_RAM; UPDATE_RAM]. split; [|cbn; lia]. repeat constructor; apply N; cbn; tauto.
      + exists [READ_INST; READ_REG; READ_RAM; UPDATE_REG]. split; [|cbn; lia]. repeat constructor; apply N; cbn; tauto.
    - exists [READ_INST; READ_REG; UPDATE_PC]. split; [|cbn; lia]. repeat constructor; apply N; cbn; tauto. }
  destruct PE as (l & P & E). exists l. rewrite E. split; [exact P|]. split; [|split; [|split; [|reflexivity]]].
  - intros l' P'. destruct l' as [|b r]; [inversion P'|].
    pose proof (path_bound d D0 _ _ (asap_valid d D0) (asap_done d D0) _ P' b r eq_refl) as H.
    destruct (asap_valid d D0) as [A _]. specialize (A b). lia.
  - exists (asap d). split; [now apply asap_valid|now apply asap_done].
  - intros st t V DB. destruct l as [|b r]; [inversion P|].
    pose proof (path_bound d D0 st t V DB _ P b r eq_refl) as H. destruct V as [A _]. specialize (A b). lia.
Qed.
Print Assumptions C84_longest_path.

(** Full statement (doc/costs.md:35): the time of a cycle is that of the longest
    path.  Of the code it is false; *)
Definition is_longest (d : block -> Z) (t : Z) : Prop :=
  exists l, path graph l /\ total d l = t /\ forall l', path graph l' -> total d l' <= t.
Theorem C84_documented_refuted :
  exists d, (forall b, 0 <= d b) /\ ~ is_longest d (code_time d).
Proof.
  exists doc_ms. split; [destruct b; cbn; lia|]. intros (l & P & E & _).
  destruct (C84_longest_path doc_ms) as (l' & _ & M & _ & _ & E'); [destruct b; cbn; lia|].
  specialize (M l P). rewrite E, E' in M. vm_compute in M. congruence.
Qed.
Print Assumptions C84_documented_refuted.
(** the order in the code is one that respects the dependencies. *)
Theorem C84_code_order :
  forall d, (forall b, 0 <= d b) ->
    valid graph d (before d code_order) /\ done_by d (before d code_order) (code_time d).
Proof.
  intros d D0.
  pose proof (D0 READ_INST). pose proof (D0 READ_REG). pose proof (D0 READ_RAM). pose proof (D0 UPDATE_REG). pose proof (D0 UPDATE_RAM). pose proof (D0 UPDATE_PC).
  split; [split|].
  - intro b. destruct b; cbn; lia.
  - intros b c N. apply needs_iff in N. unfold in_order in N. cbn [In] in N.
    repeat (destruct N as [N|N]; [injection N as <- <-; cbn; lia|]). destruct N.
  - intro b. unfold code_time. destruct b; cbn; lia.
Qed.
Print Assumptions C84_code_order.
(** the blocks run one after the other, so that the time is the sum: longer than
    the longest path unless the blocks beside it take no time. *)
Theorem C84_code_time :
  forall d, (forall b, 0 <= d b) ->
    code_time d = d READ_INST + d READ_REG + d READ_RAM + d UPDATE_REG + d UPDATE_RAM + d UPDATE_PC /\
    (is_longest d (code_time d) <->
     (d UPDATE_PC = 0 /\ (d UPDATE_REG = 0 \/ d UPDATE_RAM = 0)) \/ (d READ_RAM = 0 /\ d UPDATE_REG = 0 /\ d UPDATE_RAM = 0)).
Proof.
  intros d D0. assert (CT : code_time d = d READ_INST + d READ_REG + d READ_RAM + d UPDATE_REG + d UPDATE_RAM + d UPDATE_PC).
  { unfold code_time, code_order. cbn [sequential]. lia. }
  split; [exact CT|].
  destruct (C84_longest_path d D0) as (l & P & M & _ & _ & E).
  assert (L : is_longest d (code_time d) <-> code_time d = total d l).
  { split.
    - intros (l' & P' & E' & M'). specialize (M l' P'). specialize (M' l P). lia.
    - intro Q. exists l. split; [exact P|]. split; [lia|]. intros l' P'. specialize (M l' P'). lia. }
  rewrite L, CT, E. pose proof (D0 READ_RAM). pose proof (D0 UPDATE_REG). pose proof (D0 UPDATE_RAM). pose proof (D0 UPDATE_PC). lia.
Qed.
Print Assumptions C84_code_time.
(** With the times of the document: the longest path takes 598 ms, the code 760 ms. *)
Example C84_case : code_time doc_ms = 760 /\ total doc_ms [READ_INST; READ_REG; READ_RAM; UPDATE_REG] = 598 /\
  path graph [READ_INST; READ_REG; READ_RAM; UPDATE_REG] /\ (forall l, path graph l -> total doc_ms l <= 598).
Proof.
  split; [reflexivity|]. split; [reflexivity|]. split.
  - repeat constructor; apply needs_iff; cbn; tauto.
  - intros l P. destruct (C84_longest_path doc_ms) as (l' & _ & M & _ & _ & E'); [destruct b; cbn; lia|].
    specialize (M l P). rewrite E' in M. exact M.
Qed.

(** C85.  Over many cycles, with everything overlapped that the data allows, a cycle
    takes the largest of three times: pc to pc, registers to registers, RAM to RAM. *)
Definition period (d : block -> Z) : Z :=
  Z.max (d READ_INST + d READ_REG + d UPDATE_PC) (Z.max (d READ_REG + d READ_RAM + d UPDATE_REG) (d READ_RAM + d UPDATE_RAM)).
Theorem C85_lower_bound :
  forall d st k t, (forall b, 0 <= d b) -> valid_run graph d st -> done_by d (st k) t ->
    Z.of_nat k * period d + d READ_INST + d READ_REG + d READ_RAM + Z.max (d UPDATE_REG) (d UPDATE_RAM) <= t.
Proof.
  intros d st k t D0 [V W] DB.
  assert (IN : forall k b c, In (b, c) in_order -> st k b + d b <= st k c) by (intros j b c H; apply (V j); now apply needs_iff).
  assert (NX : forall k b c, In (b, c) next_order -> st k b + d b <= st (S k) c) by (intros j b c H; apply W; now apply next_iff).
  assert (Z0 : forall b, 0 <= st 0%nat b) by apply (V 0%nat).
  assert (A : forall k, Z.of_nat k * (d READ_INST + d READ_REG + d UPDATE_PC) <= st k READ_INST).
  { induction k0 as [|j IH]; [apply Z0|]. rewrite Nat2Z.inj_succ, Z.mul_succ_l.
    pose proof (IN j READ_INST READ_REG ltac:(cbn; tauto)). pose proof (IN j READ_REG UPDATE_PC ltac:(cbn; tauto)).
    pose proof (NX j UPDATE_PC READ_INST ltac:(cbn; tauto)). lia. }
  assert (B : forall k, Z.of_nat k * (d READ_REG + d READ_RAM + d UPDATE_REG) + d READ_INST <= st k READ_REG).
  { induction k0 as [|j IH].
    - pose proof (IN 0%nat READ_INST READ_REG ltac:(cbn; tauto)). pose proof (Z0 READ_INST). cbn [Z.of_nat Z.mul]. lia.
    - rewrite Nat2Z.inj_succ, Z.mul_succ_l.
      pose proof (IN j READ_REG READ_RAM ltac:(cbn; tauto)). pose proof (IN j READ_RAM UPDATE_REG ltac:(cbn; tauto)).
      pose proof (NX j UPDATE_REG READ_REG ltac:(cbn; tauto)). lia. }
  assert (C : forall k, Z.of_nat k * (d READ_RAM + d UPDATE_RAM) + d READ_INST + d READ_REG <= st k READ_RAM).
  { induction k0 as [|j IH].
    - pose proof (IN 0%nat READ_INST READ_REG ltac:(cbn; tauto)). pose proof (IN 0%nat READ_REG READ_RAM ltac:(cbn; tauto)).
      pose proof (Z0 READ_INST). cbn [Z.of_nat Z.mul]. lia.
    - rewrite Nat2Z.inj_succ, Z.mul_succ_l.
      pose proof (IN j READ_RAM UPDATE_RAM ltac:(cbn; tauto)). pose proof (NX j UPDATE_RAM READ_RAM ltac:(cbn; tauto)). lia. }
  specialize (A k). specialize (B k). specialize (C k).
  pose proof (IN k READ_INST READ_REG ltac:(cbn; tauto)). pose proof (IN k READ_REG READ_RAM ltac:(cbn; tauto)).
  pose proof (IN k READ_RAM UPDATE_REG ltac:(cbn; tauto)). pose proof (IN k READ_RAM UPDATE_RAM ltac:(cbn; tauto)).
  pose proof (DB UPDATE_REG). pose proof (DB UPDATE_RAM).
  unfold period. destruct (Z.max_spec (d READ_INST + d READ_REG + d UPDATE_PC) (Z.max (d READ_REG + d READ_RAM + d UPDATE_REG) (d READ_RAM + d UPDATE_RAM))) as [[_ ->]|[_ ->]]; [|lia].
  destruct (Z.max_spec (d READ_REG + d READ_RAM + d UPDATE_REG) (d READ_RAM + d UPDATE_RAM)) as [[_ ->]|[_ ->]]; lia.
Qed.
Print Assumptions C85_lower_bound.
Theorem C85_attained :
  forall d, (forall b, 0 <= d b) ->
    exists st, valid_run graph d st /\
      forall k, done_by d (st k) (Z.of_nat k * period d + d READ_INST + d READ_REG + Z.max (d UPDATE_PC) (d READ_RAM + Z.max (d UPDATE_REG) (d UPDATE_RAM))).
Proof.
  intros d D0. exists (fun k b => Z.of_nat k * period d + asap d b).
  assert (P0 : 0 <= period d) by (unfold period; pose proof (D0 READ_RAM); pose proof (D0 UPDATE_RAM); lia).
  destruct (asap_valid d D0) as [A1 A2]. split; [split|].
  - intro k. split.
    + intro b. specialize (A1 b). assert (0 <= Z.of_nat k * period d) by (apply Z.mul_nonneg_nonneg; lia). lia.
    + intros b c N. specialize (A2 b c N). lia.
  - intros k b c N. rewrite Nat2Z.inj_succ, Z.mul_succ_l. apply next_iff in N. unfold next_order in N. cbn [In] in N.
    pose proof (D0 READ_INST). pose proof (D0 READ_REG). pose proof (D0 READ_RAM). pose proof (D0 UPDATE_REG). pose proof (D0 UPDATE_RAM). pose proof (D0 UPDATE_PC).
    assert (Q1 : d READ_INST + d READ_REG + d UPDATE_PC <= period d) by (unfold period; lia).
    assert (Q2 : d READ_REG + d READ_RAM + d UPDATE_REG <= period d) by (unfold period; lia).
    assert (Q3 : d READ_RAM + d UPDATE_RAM <= period d) by (unfold period; lia).
    repeat (destruct N as [N|N]; [injection N as <- <-; cbn [asap]; lia|]). destruct N.
  - intros k b. pose proof (asap_done d D0 b) as H. unfold longest in H. cbv beta. lia.
Qed.
Print Assumptions C85_attained.
(** With the times of the document: 433 ms, and each cycle done 433 ms after the one before. *)
Example C85_case : period doc_ms = 433 /\ exists st, valid_run graph doc_ms st /\
  (forall k, done_by doc_ms (st k) (Z.of_nat k * 433 + 598)) /\
  (forall st' k t, valid_run graph doc_ms st' -> done_by doc_ms (st' k) t -> Z.of_nat k * 433 + 598 <= t).
Proof.
  assert (D0 : forall b, 0 <= doc_ms b) by (destruct b; cbn; lia).
  split; [reflexivity|]. destruct (C85_attained doc_ms D0) as (st & V & DB). exists st. split; [exact V|]. split.
  - intros k b. specialize (DB k b). change (period doc_ms) with 433 in DB. cbn [doc_ms] in DB. lia.
  - intros st' k t V' DB'. pose proof (C85_lower_bound doc_ms st' k t D0 V' DB') as H.
    change (period doc_ms) with 433 in H. cbn [doc_ms] in H. lia.
Qed.
