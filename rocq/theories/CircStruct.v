(** * Every generated circuit reads only written slots *)
Require Import NArith Lia Bool List Arith.
From Verif Require Import Bdd CircSpec BddCheck BddFacts CircFacts.
Import ListNotations.
Open Scope nat_scope.

Definition is_set (o : option node) : bool :=
  match o with Some E => false | Some _ => true | None => false end.
Definition holds_b (w : nat) (nodes : list node) (p j : nat) : bool :=
  (j <? w) && match p / w with O => j <=? 1 | S l => is_set (nth_error nodes (l * w + j)) end.
Fixpoint all_pos (nin : N) (w : nat) (nodes : list node) (p : nat) (l : list node) : bool :=
  match l with
  | [] => true
  | n :: r =>
      match n with
      | C s h lo => (s <? nin)%N && holds_b w nodes p (N.to_nat h) && holds_b w nodes p (N.to_nat lo)
      | P => holds_b w nodes p (p mod w)
      | E => true
      end && all_pos nin w nodes (S p) r
  end.
Definition reads_b (nin : N) (b : bit_circuit) : bool :=
  match b with
  | BC w nodes =>
      (length nodes =? (length nodes / w) * w) &&
      match w with O => match nodes with [] => true | _ => false end
      | _ => is_set (nth_error nodes (length nodes - w)) end &&
      all_pos nin w nodes 0 nodes
  end.
Lemma is_set_ok o : is_set o = true -> exists n, o = Some n /\ n <> E.
Proof. destruct o as [[]|]; try discriminate; intros; eexists; split; try reflexivity; discriminate. Qed.
Lemma holds_ok w nodes p j : holds_b w nodes p j = true -> holds_value w nodes p j.
Proof.
  unfold holds_b, holds_value. intros H. apply andb_true_iff in H as [H1 H2]. apply Nat.ltb_lt in H1.
  split; auto. destruct (p / w); [now apply Nat.leb_le|now apply is_set_ok].
Qed.
Lemma all_pos_ok nin w nodes l : forall p0, all_pos nin w nodes p0 l = true ->
  forall q n, nth_error l q = Some n ->
    match n with
    | C s h lo => (s < nin)%N /\ holds_value w nodes (p0 + q) (N.to_nat h) /\ holds_value w nodes (p0 + q) (N.to_nat lo)
    | P => holds_value w nodes (p0 + q) ((p0 + q) mod w)
    | E => True
    end.
Proof.
  induction l as [|m r IH]; intros p0 H q n Hn; [destruct q; discriminate|].
  cbn [all_pos] in H. apply andb_true_iff in H as [H1 H2]. destruct q as [|q].
  - injection Hn as <-. rewrite Nat.add_0_r. destruct m as [s h lo| |]; auto.
    + apply andb_true_iff in H1 as [H1 H3]. apply andb_true_iff in H1 as [H0 H1].
      apply N.ltb_lt in H0. auto using holds_ok.
    + auto using holds_ok.
  - rewrite <- Nat.add_succ_comm. apply (IH _ H2). exact Hn.
Qed.
Lemma reads_ok nin b : reads_b nin b = true -> reads_written nin b.
Proof.
  destruct b as [w nodes]. unfold reads_b, reads_written. intros H.
  apply andb_true_iff in H as [H H3]. apply andb_true_iff in H as [H1 H2].
  split; [|split; [|split]].
  - apply Nat.eqb_eq in H1. eauto.
  - intros ->. now destruct nodes.
  - intros Hw. destruct w; [congruence|]. now apply is_set_ok.
  - apply (all_pos_ok _ _ _ _ 0 H3).
Qed.
Lemma circuits_read c b : In c circuits -> In b (bits_out c) -> reads_written (input_bits c) b.
Proof.
  assert (A : forallb (fun c => forallb (reads_b (input_bits c)) (bits_out c)) circuits = true)
    by (vm_compute; reflexivity).
  rewrite forallb_forall in A. intros Hc Hb. specialize (A _ Hc). rewrite forallb_forall in A.
  now apply reads_ok, A.
Qed.

Lemma eval_bits_total inp f nin cs :
  (forall v, (v < nin)%N -> inp v = Some (f v)) -> forallb (sound_bit nin) cs = true ->
  exists bs, eval_bits inp cs = Some bs.
Proof.
  intros I. induction cs as [|c r IH]; cbn [forallb eval_bits]; intros H; [eauto|].
  apply andb_true_iff in H as [H1 H2]. destruct (IH H2) as (bs & ->).
  destruct c as [[|w] nodes]; [cbn; eauto|].
  rewrite (eval_bit_ok inp f nin I w nodes H1). eauto.
Qed.
Lemma circuits_total c inp f : In c circuits ->
  (forall v, (v < input_bits c)%N -> inp v = Some (f v)) -> exists w, eval_circuit c inp = Some w.
Proof.
  intros Hc I. pose proof all_sound as A. rewrite forallb_forall in A. specialize (A _ Hc).
  destruct (eval_bits_total (fun v => if (v <? input_bits c)%N then inp v else None) f (input_bits c) (bits_out c))
    as (bs & E); auto.
  { intros v Hv. rewrite (proj2 (N.ltb_lt _ _) Hv). auto. }
  unfold eval_circuit. rewrite E. eauto.
Qed.
