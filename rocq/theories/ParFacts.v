(** Facts about [Par]: every interleaving computes the sequential map. *)
Require Import ZArith List Bool Lia Permutation.
Require Import Verif.Word Verif.ListFacts Verif.Par.
Import ListNotations.
Open Scope nat_scope.

Definition ident_tasks (s len : nat) : list task := map (fun i => (i, i)) (seq s len).

Lemma firstn_seq c s len : firstn c (seq s len) = seq s (min c len).
Proof. revert s len; induction c; intros s [|len]; cbn; auto. now rewrite IHc. Qed.
Lemma skipn_seq c s len : skipn c (seq s len) = seq (s + c) (len - c).
Proof.
  revert s len; induction c; intros s [|len]; cbn; try rewrite Nat.add_0_r; auto.
  rewrite IHc. f_equal; lia.
Qed.


Lemma combine_ident k s len :
  map (fun ix : nat * nat => (snd ix, s + fst ix)) (combine (seq k len) (seq (s + k) len))
  = ident_tasks (s + k) len.
Proof.
  revert k; induction len; intro k; cbn; auto. f_equal.
  replace (S (s + k)) with (s + S k) by lia. apply IHlen.
Qed.

Lemma concat_number c : 0 < c -> forall fuel idx len, len <= fuel ->
  concat (number (fun idx i => c * idx + i) idx (chunks_of fuel c (seq (c * idx) len)))
  = ident_tasks (c * idx) len.
Proof.
  intros Hc fuel; induction fuel; intros idx len H.
  - assert (len = 0) by lia. now subst.
  - destruct len as [|len]; [reflexivity|].
    change (chunks_of (S fuel) c (seq (c * idx) (S len)))
      with (firstn c (seq (c * idx) (S len)) :: chunks_of fuel c (skipn c (seq (c * idx) (S len)))).
    rewrite firstn_seq, skipn_seq. cbn [number concat].
    rewrite seq_length.
    pose proof (combine_ident 0 (c * idx) (min c (S len))) as E.
    rewrite Nat.add_0_r in E. rewrite E.
    replace (c * idx + c) with (c * S idx) by lia.
    rewrite IHfuel by lia. unfold ident_tasks. rewrite <- map_app. f_equal.
    destruct (le_lt_dec (S len) c) as [L|L].
    + rewrite (Nat.min_r c (S len)) by lia.
      replace (S len - c) with 0 by lia. cbn. now rewrite app_nil_r.
    + rewrite (Nat.min_l c (S len)) by lia.
      replace (c * S idx) with (c * idx + c) by lia.
      rewrite <- seq_app. f_equal. lia.
Qed.

Lemma number_length f cs : forall idx, length (number f idx cs) = length cs.
Proof. induction cs; intro idx; cbn; auto. Qed.

Lemma chunks_of_count A c : forall fuel (xs : list A) k, length xs <= c * k -> length (chunks_of fuel c xs) <= k.
Proof.
  induction fuel; intros xs k H; cbn; [lia|].
  destruct xs as [|x xs]; cbn [length]; [lia|].
  destruct k as [|k]; [cbn [length] in H; lia|].
  apply le_n_S. apply IHfuel. rewrite skipn_length. lia.
Qed.

Lemma chunk_size_pos threads len : 0 < threads -> 0 < len -> 0 < chunk_size threads len.
Proof. intros. unfold chunk_size. apply Nat.div_str_pos. lia. Qed.
Lemma chunk_size_covers threads len : 0 < threads -> len <= chunk_size threads len * threads.
Proof.
  intros. unfold chunk_size.
  pose proof (Nat.div_mod (len + threads - 1) threads). pose proof (Nat.mod_upper_bound (len + threads - 1) threads). nia.
Qed.

(** the task lists cover every cell exactly once, whatever the thread count *)
Lemma thread_tasks_cover threads len : 0 < threads -> 0 < len ->
  exists ts, thread_tasks threads len = Some ts /\ concat ts = ident_tasks 0 len.
Proof.
  intros Ht Hl. unfold thread_tasks, tasks_of.
  pose proof (chunk_size_pos threads len Ht Hl) as Hc.
  rewrite (proj2 (Nat.ltb_lt 0 threads) Ht), (proj2 (Nat.ltb_lt _ _) Hc).
  eexists; split; [reflexivity|].
  rewrite firstn_all2.
  - pose proof (concat_number (chunk_size threads len) Hc len 0 len (le_n _)) as E.
    rewrite Nat.mul_0_r in E. exact E.
  - rewrite number_length. apply chunks_of_count. rewrite seq_length. now apply chunk_size_covers.
Qed.

Lemma interleave_perm T (ls : list (list T)) s : interleave ls s -> Permutation (concat ls) s.
Proof.
  induction 1 as [ls H|pre x r post s H IH].
  - induction H as [|l ls Hl _ IH]; cbn; [constructor|]. subst. exact IH.
  - rewrite concat_app in *. cbn in *.
    etransitivity; [apply Permutation_sym, Permutation_middle|]. now constructor.
Qed.

(** running thread after thread is one of the interleavings *)
Lemma interleave_seq T (ls : list (list T)) : interleave ls (concat ls).
Proof.
  enough (H : forall pre, Forall (fun l => l = []) pre -> interleave (pre ++ ls) (concat ls)) by (apply (H []); constructor).
  induction ls as [|l ls IH]; intros pre Hp; cbn.
  - rewrite app_nil_r. now constructor.
  - induction l as [|x l IHl]; cbn.
    + replace (pre ++ [] :: ls) with ((pre ++ [[]]) ++ ls) by (rewrite <- app_assoc; reflexivity).
      apply IH. apply Forall_app; split; auto.
    + now apply il_step.
Qed.

(** ** running the tasks *)
Fixpoint mapi_o {A B} (g : nat -> A -> option B) (k : nat) (l : list A) : option (list B) :=
  match l with
  | [] => Some []
  | x :: r => do y <- g k x; do ys <- mapi_o g (S k) r; Some (y :: ys)
  end.

Lemma mapi_o_nth A B (g : nat -> A -> option B) l : forall k ys, mapi_o g k l = Some ys ->
  length ys = length l /\
  (forall i x, nth_error l i = Some x -> exists y, g (k + i) x = Some y /\ nth_error ys i = Some y).
Proof.
  induction l as [|x l IH]; intros k ys H; cbn in H.
  - injection H as <-. split; auto. intros [|i] x; discriminate.
  - destruct (g k x) as [y|] eqn:Ey; [|discriminate].
    destruct (mapi_o g (S k) l) as [ys'|] eqn:E2; [|discriminate].
    injection H as <-. destruct (IH _ _ E2) as [HL HN]. split; [cbn; lia|].
    intros [|i] z Hz; cbn in Hz.
    + injection Hz as <-. rewrite Nat.add_0_r. eauto.
    + replace (k + S i) with (S k + i) by lia. cbn. eauto.
Qed.
Lemma mapi_o_none A B (g : nat -> A -> option B) l : forall k, mapi_o g k l = None ->
  exists i x, nth_error l i = Some x /\ g (k + i) x = None.
Proof.
  induction l as [|x l IH]; intros k H; cbn in H; [discriminate|].
  destruct (g k x) eqn:Ex.
  - destruct (mapi_o g (S k) l) eqn:E; [discriminate|].
    destruct (IH _ E) as (i & z & A1 & A2). exists (S i), z. split; auto.
    now replace (k + S i) with (S k + i) by lia.
  - exists 0, x. rewrite Nat.add_0_r. auto.
Qed.
Lemma mapi_o_intro A B (g : nat -> A -> option B) l : forall k ys, length ys = length l ->
  (forall i x, nth_error l i = Some x -> exists y, g (k + i) x = Some y /\ nth_error ys i = Some y) ->
  mapi_o g k l = Some ys.
Proof.
  induction l as [|x l IH]; intros k [|y ys] HL H; try discriminate; cbn; auto.
  destruct (H 0 x eq_refl) as (y' & E1 & E2). rewrite Nat.add_0_r in E1. cbn in E2.
  injection E2 as ->. rewrite E1.
  rewrite (IH (S k) ys); auto.
  intros i z Hz. destruct (H (S i) z Hz) as (u & A1 & A2). exists u.
  split; auto. now replace (S k + i) with (k + S i) by lia.
Qed.

Lemma run_tasks_some A (g : nat -> A -> option A) : forall order cells,
  NoDup (map fst order) ->
  (forall p q, In (p, q) order -> p = q /\ exists x y, nth_error cells p = Some x /\ g p x = Some y) ->
  exists out, run_tasks g order cells = Some out /\ length out = length cells /\
    (forall i, ~ In i (map fst order) -> nth_error out i = nth_error cells i) /\
    (forall i x, In i (map fst order) -> nth_error cells i = Some x -> nth_error out i = g i x).
Proof.
  induction order as [|[p q] r IH]; intros cells ND H; cbn.
  - eexists; split; [reflexivity|]. repeat split; auto. intros ? ? [].
  - destruct (H p q (or_introl eq_refl)) as [<- (x & y & E1 & E2)].
    rewrite E1, E2.
    destruct (set_nth_some _ cells p y (nth_error_Some_lt _ _ _ _ E1)) as [c Ec]. rewrite Ec.
    cbn in ND. inversion ND as [|? ? NI ND']; subst.
    destruct (IH c ND') as (out & R & L & Ha & Hb).
    { intros p' q' Hin. destruct (H p' q' (or_intror Hin)) as [<- (x' & y' & F1 & F2)].
      split; auto. exists x', y'. rewrite (set_nth_nth _ _ _ _ _ p' Ec).
      destruct (Nat.eqb_spec p' p) as [->|]; auto.
      exfalso; apply NI. now apply (in_map fst) in Hin. }
    exists out. split; auto. split; [rewrite L; eapply set_nth_length; eauto|]. split.
    + intros i Hi. rewrite Ha by tauto. rewrite (set_nth_nth _ _ _ _ _ i Ec).
      destruct (Nat.eqb_spec i p); auto. subst; tauto.
    + intros i z [<-|Hi] Hz.
      * rewrite Ha by auto. rewrite (set_nth_nth _ _ _ _ _ p Ec), Nat.eqb_refl.
        congruence.
      * apply Hb; auto. rewrite (set_nth_nth _ _ _ _ _ i Ec).
        destruct (Nat.eqb_spec i p); auto. subst; tauto.
Qed.
Lemma run_tasks_none A (g : nat -> A -> option A) : forall order cells i x,
  NoDup (map fst order) -> (forall p q, In (p, q) order -> p = q) ->
  In i (map fst order) -> nth_error cells i = Some x -> g i x = None ->
  run_tasks g order cells = None.
Proof.
  induction order as [|[p q] r IH]; intros cells i x ND Hq Hi Hx Hg; cbn; [destruct Hi|].
  pose proof (Hq p q (or_introl eq_refl)); subst q.
  cbn in ND. inversion ND as [|? ? NI ND']; subst.
  destruct Hi as [E|Hi].
  - cbn in E; subst. now rewrite Hx, Hg.
  - destruct (nth_error cells p); auto. destruct (g p a) as [y|]; auto.
    destruct (set_nth cells p y) as [c|] eqn:Ec; auto.
    apply (IH c i x); auto; [intros; apply Hq; now right|].
    rewrite (set_nth_nth _ _ _ _ _ i Ec). destruct (Nat.eqb_spec i p); auto. subst; tauto.
Qed.

Lemma run_tasks_perm A (g : nat -> A -> option A) order cells :
  Permutation (ident_tasks 0 (length cells)) order -> run_tasks g order cells = mapi_o g 0 cells.
Proof.
  intro P.
  assert (Hf : map fst (ident_tasks 0 (length cells)) = seq 0 (length cells)).
  { unfold ident_tasks. rewrite map_map. cbn. apply map_id. }
  assert (ND : NoDup (map fst order)).
  { eapply Permutation_NoDup; [apply Permutation_map, P|]. rewrite Hf. apply seq_NoDup. }
  assert (Hq : forall p q, In (p, q) order -> p = q /\ p < length cells).
  { intros p q Hin. eapply Permutation_in in Hin; [|apply Permutation_sym, P].
    unfold ident_tasks in Hin. apply in_map_iff in Hin as (i & E & Hs). injection E as -> ->.
    apply in_seq in Hs. split; auto; lia. }
  assert (Hin : forall i, i < length cells -> In i (map fst order)).
  { intros i Hi. eapply Permutation_in; [apply Permutation_map, P|]. rewrite Hf. apply in_seq. lia. }
  destruct (mapi_o g 0 cells) as [ys|] eqn:E.
  - destruct (mapi_o_nth _ _ _ _ _ _ E) as [HL HN].
    destruct (run_tasks_some _ g order cells ND) as (out & R & L & _ & Hb).
    { intros p q Hpq. destruct (Hq p q Hpq) as [-> Hlt]. split; auto.
      destruct (nth_error_lt _ _ _ Hlt) as [x Hx]. destruct (HN _ _ Hx) as (y & Hy & _). eauto. }
    rewrite R. f_equal. apply nth_error_ext. intro n.
    destruct (le_lt_dec (length cells) n) as [Hn|Hn].
    + rewrite (proj2 (nth_error_None out n)), (proj2 (nth_error_None ys n)) by lia. reflexivity.
    + destruct (nth_error_lt _ _ _ Hn) as [x Hx]. destruct (HN _ _ Hx) as (y & Hy & Hyn).
      rewrite (Hb n x (Hin n Hn) Hx). cbn in Hy. congruence.
  - destruct (mapi_o_none _ _ _ _ _ E) as (i & x & Hx & Hg).
    apply (run_tasks_none _ g order cells i x); auto.
    + intros; now apply (Hq p q).
    + apply Hin. eapply nth_error_Some_lt; eauto.
Qed.
