(** * The steps of the debug VM keep its fields [u32]s (helper lemmas of PropTextEnc.v) *)
Require Import ZArith List Bool Lia.
From Verif Require Import Rust TextFacts.
Require Verif.Isa Verif.Bits Verif.EvalFacts Verif.ListFacts Verif.Word Verif.Codec Verif.EvalPlain Verif.DebugVM.
Module M := Verif.DebugVM.
Import ListNotations.
Open Scope Z_scope.

(** all the fields the next steps read are [u32]s *)
Definition full (s : M.dvm) : Prop :=
  typed s /\ word (M.imm (M.lat s)) /\ word (M.rs1_val (M.lat s)) /\ word (M.rs2_val (M.lat s)) /\
  0 <= M.ram_addr (M.lat s) /\ word (M.ram_val (M.lat s)).

Lemma full_new : forall a b, full (M.dvm_new a b).
Proof.
  intros a b. assert (W : word 0) by (unfold Isa.word; lia).
  assert (F : forall n, Forall word (repeat 0 n)) by (intro n; apply Forall_forall; intros x H; apply repeat_spec in H; subst; exact W).
  unfold full, typed. cbn -[Isa.word repeat Z.le].
  refine (conj (conj _ (conj W (conj (F a) (conj (F 32%nat) (F b))))) (conj W (conj W (conj W (conj _ W))))).
  - unfold Word.u32. apply Z.mod_pos_bound. lia.
  - lia.
Qed.
Ltac split_full := unfold full, typed in *;
  match goal with H : _ /\ _ |- _ => destruct H as ((? & ? & ? & ? & ?) & ? & ? & ? & ? & ?) end.
Ltac opened H := match type of H with
  | match ?e with Some _ => _ | None => _ end = _ => let Q := fresh "Q" in destruct e eqn:Q; [|discriminate H]
  end.
Ltac close H := injection H as <-; cbn -[Isa.word Word.wsub Word.wadd Word.shl32 Z.le] in *.
Ltac done := repeat (split; [assumption|]); try assumption.
Ltac from_list := match goal with Q : nth_error ?l _ = Some ?x, F : Forall word ?l |- word ?x =>
  rewrite Forall_forall in F; apply F; eapply nth_error_In; exact Q end.

Lemma full_read_instructions : forall s s', full s -> M.read_instructions s = Some s' -> full s'.
Proof.
  intros s s' F H. split_full. unfold M.read_instructions in H. cbv zeta in H. repeat opened H. close H.
  split; [done|]. split; [from_list|]. done.
Qed.
Lemma full_read_registers : forall s s', full s -> M.read_registers s = Some s' -> full s'.
Proof.
  intros s s' F H. split_full. unfold M.read_registers in H. cbv zeta in H. repeat opened H. close H.
  split; [done|]. split; [assumption|]. split; [from_list|]. split; [from_list|]. split; assumption.
Qed.
Lemma full_read_ram : forall s s', full s -> M.read_ram s = Some s' -> full s'.
Proof.
  intros s s' F H. split_full. unfold M.read_ram in H. cbv zeta in H. repeat opened H. close H.
  split; [done|]. split; [assumption|]. split; [assumption|]. split; [assumption|]. split; [apply wadd_nonneg|from_list].
Qed.
Lemma word_map : forall imm a b c r ops m0 m1 k v,
  word imm -> word a -> word b -> word c -> word r ->
  Forall (fun e => word (snd e)) m0 ->
  M.build_map Codec.rd_id (fun o => EvalPlain.rd_eval o imm a b c r) ops m0 = Some m1 ->
  M.lookup k m1 = Some v -> word v.
Proof.
  intros imm a b c r os. induction os as [ | o os IH ]; intros m0 m1 k v' I1 I2 I3 I4 I5 W0 H L; cbn [M.build_map] in H.
  - injection H as <-. induction W0 as [ | [k1 v1] m0 W1 W2 IHm ]; cbn in L; [ discriminate | ].
    destruct (k =? k1); [ injection L as <-; exact W1 | exact (IHm L) ].
  - destruct (EvalPlain.rd_eval o _ _ _ _ _) as [ x | ] eqn:V; [ | discriminate H ].
    eapply IH; [ .. | exact H | exact L ]; auto. constructor; [ | assumption ]. cbn [snd].
    eapply word_rd_eval; [ .. | exact V ]; assumption.
Qed.
Lemma full_update_registers : forall ops s s', full s -> M.update_registers ops s = Some s' -> full s'.
Proof.
  intros ops s s' F H. split_full. unfold M.update_registers in H. cbv zeta in H. repeat opened H.
  assert (W : word z) by (eapply word_map; [ .. | exact Q | exact Q0 ]; try assumption; constructor).
  close H. split; [|done]. split; [assumption|]. split; [assumption|]. split; [assumption|]. split; [|assumption].
  eapply ListFacts.set_nth_Forall; [ exact Q2 | | unfold Isa.word; lia ].
  eapply ListFacts.set_nth_Forall; [ exact Q1 | assumption | exact W ].
Qed.
Lemma full_update_ram : forall s s', full s -> M.update_ram s = Some s' -> full s'.
Proof.
  intros s s' F H. split_full. unfold M.update_ram in H. cbv zeta in H. cbn [M.build_map EvalPlain.RAM_LIST] in H.
  repeat opened H.
  assert (W : word z).
  { cbn [M.lookup] in Q.
    repeat match type of Q with (if ?b then _ else _) = _ => destruct b end;
    try discriminate Q; match type of Q with Some ?a = Some _ => assert (EV : a = z) by congruence end;
    rewrite <- EV; apply EvalFacts.word_ram_eval; assumption. }
  clear Q. close H. split; [|done]. split; [assumption|]. split; [assumption|]. split; [assumption|]. split; [assumption|].
  eapply ListFacts.set_nth_Forall; [ exact Q1 | assumption | exact W ].
Qed.
Lemma full_update_pc : forall s s', full s -> M.update_pc s = Some s' -> full s'.
Proof.
  intros s s' F H. split_full. unfold M.update_pc in H. cbv zeta in H. cbn [M.build_map EvalPlain.PC_LIST] in H.
  repeat opened H.
  assert (W : word z).
  { cbn [M.lookup] in Q.
    repeat match type of Q with (if ?b then _ else _) = _ => destruct b end;
    try discriminate Q; match type of Q with Some ?a = Some _ => assert (EV : a = z) by congruence end;
    rewrite <- EV; cbn [EvalPlain.pc_eval];
    repeat match goal with |- context [if ?b then _ else _] => destruct b end;
    try (unfold Word.wadd; apply Bits.word_u32).
    apply Bits.word_land_l; [ apply Bits.word_u32 | lia ]. }
  clear Q. close H. split; [|done]. split; [assumption|]. split; [exact W|]. done.
Qed.
