(** * Lists with checked indexing (proofs) *)
Require Import ZArith Lia Bool List Arith.
From Verif Require Import Word.
Import ListNotations.

Lemma set_nth_some A (l : list A) n x : (n < length l)%nat -> exists l', set_nth l n x = Some l'.
Proof.
  revert n. induction l as [|h t IH]; intros [|n] H; cbn in *; try lia.
  - eexists; reflexivity.
  - destruct (IH n ltac:(lia)) as [l' ->]. eexists; reflexivity.
Qed.
Lemma set_nth_none A (l : list A) n x : (length l <= n)%nat -> set_nth l n x = None.
Proof.
  revert n. induction l as [|h t IH]; intros [|n] H; cbn in *; try lia; auto.
  rewrite IH by lia. reflexivity.
Qed.
Lemma set_nth_length A (l : list A) n x l' : set_nth l n x = Some l' -> length l' = length l.
Proof.
  revert n l'. induction l as [|h t IH]; intros [|n] l' H; cbn in *; try discriminate.
  - injection H as <-. reflexivity.
  - destruct (set_nth t n x) eqn:E; [|discriminate]. injection H as <-. cbn. f_equal. eauto.
Qed.
Lemma set_nth_lt A (l : list A) n x l' : set_nth l n x = Some l' -> (n < length l)%nat.
Proof.
  intros H. destruct (Nat.lt_ge_cases n (length l)); auto. rewrite set_nth_none in H by auto. discriminate.
Qed.
Lemma set_nth_nth A (l : list A) n x l' k : set_nth l n x = Some l' ->
  nth_error l' k = if Nat.eqb k n then Some x else nth_error l k.
Proof.
  revert n l' k. induction l as [|h t IH]; intros [|n] l' k H; cbn in *; try discriminate.
  - injection H as <-. destruct k; reflexivity.
  - destruct (set_nth t n x) eqn:E; [|discriminate]. injection H as <-. destruct k; cbn; auto.
Qed.
Lemma set_nth_Forall A (P : A -> Prop) (l : list A) n x l' :
  set_nth l n x = Some l' -> Forall P l -> P x -> Forall P l'.
Proof.
  revert n l'. induction l as [|h t IH]; intros [|n] l' H HF Hx; cbn in *; try discriminate.
  - injection H as <-. inversion HF; auto.
  - destruct (set_nth t n x) eqn:E; [|discriminate]. injection H as <-. inversion HF; subst.
    constructor; eauto.
Qed.
Lemma nth_error_Some_lt A (l : list A) n x : nth_error l n = Some x -> (n < length l)%nat.
Proof. intros H. apply nth_error_Some. congruence. Qed.
Lemma nth_error_lt A (l : list A) n : (n < length l)%nat -> exists x, nth_error l n = Some x.
Proof. intros H. destruct (nth_error l n) eqn:E; eauto. apply nth_error_None in E. lia. Qed.
Lemma nth_error_ext A (l1 l2 : list A) : (forall n, nth_error l1 n = nth_error l2 n) -> l1 = l2.
Proof.
  revert l2. induction l1 as [|h t IH]; intros [|h2 t2] H; auto.
  - specialize (H 0%nat). discriminate.
  - specialize (H 0%nat). discriminate.
  - pose proof (H 0%nat) as H0. injection H0 as ->. f_equal. apply IH. intros n. apply (H (S n)).
Qed.
Lemma set_nth_same A (l : list A) n x : nth_error l n = Some x -> set_nth l n x = Some l.
Proof.
  intros H. destruct (set_nth_some _ l n x (nth_error_Some_lt _ _ _ _ H)) as [l' E]. rewrite E. f_equal.
  apply nth_error_ext. intros k. rewrite (set_nth_nth _ _ _ _ _ _ E).
  destruct (Nat.eqb_spec k n); subst; auto.
Qed.
Lemma nth_error_Forall A (P : A -> Prop) l n x : Forall P l -> nth_error l n = Some x -> P x.
Proof. intros H E. eapply Forall_forall; eauto using nth_error_In. Qed.
