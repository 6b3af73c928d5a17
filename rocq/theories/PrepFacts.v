(** Proofs about [Prepare]. *)
Require Import ZArith List Bool Lia Permutation.
Require Import Verif.Word Verif.ListFacts Verif.Glwe Verif.GlweFacts Verif.Par Verif.ParFacts
  Verif.EncMem Verif.MemOps Verif.MemClient Verif.Prepare.
Import ListNotations.
Open Scope nat_scope.

Lemma sums_nth counts : forall s k, k < length counts ->
  nth_error (sums_from s counts) k = Some (s + list_sum (firstn (S k) counts)).
Proof.
  induction counts as [|c r IH]; intros s [|k] H; cbn [length] in *; try lia; cbn [sums_from nth_error].
  - cbn. f_equal; lia.
  - rewrite IH by lia. f_equal. change (firstn (S (S k)) (c :: r)) with (c :: firstn (S k) r).
    change (list_sum (c :: firstn (S k) r)) with (c + list_sum (firstn (S k) r)). lia.
Qed.
Lemma running_nth counts k : k <= length counts ->
  nth_error (running_sums counts) k = Some (list_sum (firstn k counts)).
Proof.
  intro H. unfold running_sums. destruct k as [|k]; [reflexivity|].
  cbn [nth_error]. rewrite sums_nth by lia. reflexivity.
Qed.
Lemma sums_length counts : forall s, length (sums_from s counts) = length counts.
Proof. induction counts; intro s; cbn; auto. Qed.

Lemma sum_mono counts i j : i <= j -> list_sum (firstn i counts) <= list_sum (firstn j counts).
Proof.
  revert i j; induction counts as [|c r IH]; intros [|i] [|j] H; cbn; try lia.
  specialize (IH i j ltac:(lia)). fold (list_sum (firstn i r)) (list_sum (firstn j r)). lia.
Qed.
Lemma find_comp_ok counts i q : i < length counts ->
  list_sum (firstn i counts) <= q < list_sum (firstn (S i) counts) ->
  forall fuel cnt, cnt <= i -> i < cnt + fuel -> find_comp fuel (running_sums counts) cnt q = Some i.
Proof.
  intros Hi Hq. induction fuel as [|f IH]; intros cnt H1 H2; [lia|].
  cbn [find_comp]. rewrite running_nth by lia.
  destruct (Nat.leb_spec (list_sum (firstn (S cnt) counts)) q) as [L|L].
  - apply IH; [|lia]. destruct (Nat.eq_dec cnt i); [subst; lia|lia].
  - f_equal. destruct (Nat.eq_dec cnt i); auto.
    pose proof (sum_mono counts (S cnt) i ltac:(lia)). lia.
Qed.

(** every destination belongs to one component *)
Lemma locate counts : forall q, q < list_sum counts ->
  exists i, i < length counts /\ list_sum (firstn i counts) <= q < list_sum (firstn (S i) counts).
Proof.
  induction counts as [|c r IH]; intros q H; [cbn in H; lia|].
  change (list_sum (c :: r)) with (c + list_sum r) in H.
  destruct (le_lt_dec c q) as [L|L].
  - destruct (IH (q - c)) as (i & Hi & Hq); [lia|]. exists (S i). cbn [length]. split; [lia|].
    change (firstn (S (S i)) (c :: r)) with (c :: firstn (S i) r).
    change (firstn (S i) (c :: r)) with (c :: firstn i r).
    change (list_sum (c :: firstn (S i) r)) with (c + list_sum (firstn (S i) r)).
    change (list_sum (c :: firstn i r)) with (c + list_sum (firstn i r)). lia.
  - exists 0. cbn. lia.
Qed.
Lemma sum_S counts i c : nth_error counts i = Some c ->
  list_sum (firstn (S i) counts) = list_sum (firstn i counts) + c.
Proof.
  revert i; induction counts as [|x r IH]; intros [|i] H; try discriminate; cbn in H.
  - injection H as ->. cbn. lia.
  - change (firstn (S (S i)) (x :: r)) with (x :: firstn (S i) r).
    change (firstn (S i) (x :: r)) with (x :: firstn i r).
    change (list_sum (x :: firstn (S i) r)) with (x + list_sum (firstn (S i) r)).
    change (list_sum (x :: firstn i r)) with (x + list_sum (firstn i r)). rewrite (IH _ H). lia.
Qed.
Lemma sum_le counts i : list_sum (firstn i counts) <= list_sum counts.
Proof.
  pose proof (sum_mono counts i (max i (length counts)) ltac:(lia)) as H.
  rewrite (firstn_all2 (n := max i (length counts))) in H by lia. exact H.
Qed.

Lemma nth_error_window {X} (l : list X) : forall s j c, j < c ->
  nth_error (firstn c (skipn s l)) j = nth_error l (s + j).
Proof.
  induction l as [|z l IH]; intros s j c H.
  - rewrite skipn_nil, firstn_nil. now destruct j, s.
  - destruct s as [|s]; [|cbn [skipn plus nth_error]; now apply IH].
    cbn [skipn plus]. generalize (z :: l) as m. clear - H. intro m. revert j c H.
    induction m; intros [|j] [|c] H; cbn; auto; try lia. apply IHm. lia.
Qed.

Section Prep.
Context {ct pb fu : Type} (A : alg ct pb fu).

Lemma scatter_nth counts : forall (cells : list pb) i c, nth_error counts i = Some c ->
  nth_error (scatter_bits A counts cells) i
  = Some (firstn c (skipn (list_sum (firstn i counts)) cells) ++ repeat (a_pzero A) (32 - c)).
Proof.
  induction counts as [|x r IH]; intros cells [|i] c H; try discriminate; cbn in H.
  - injection H as ->. reflexivity.
  - cbn [scatter_bits nth_error]. rewrite (IH _ _ _ H), skipn_skipn. reflexivity.
Qed.
Lemma scatter_bits_length counts : forall (cells : list pb), length (scatter_bits A counts cells) = length counts.
Proof. induction counts; intro cells; cbn; auto. Qed.

Lemma combined_length (res : list (list pb)) : forall counts, length res = length counts ->
  (forall r, In r res -> length r = 32) -> forallb (fun c => c <=? 32) counts = true ->
  length (concat (map (fun rc => firstn (snd rc) (fst rc)) (combine res counts))) = list_sum counts.
Proof.
  induction res as [|r res IH]; intros [|c counts] L H F; cbn in L; try discriminate; auto.
  cbn [forallb] in F. apply andb_prop in F as [F1 F2]. apply Nat.leb_le in F1.
  cbn [combine map concat fst snd]. rewrite app_length, firstn_length, IH; auto.
  - rewrite (H r) by now left. change (list_sum (c :: counts)) with (c + list_sum counts). lia.
  - intros. apply H. now right.
Qed.

Lemma prepare_multiple_ok threads order res bits counts :
  length res = length counts -> length bits = length counts ->
  (forall r, In r res -> length r = 32) -> forallb (fun c => c <=? 32) counts = true ->
  par_order threads (list_sum counts) order ->
  exists out, prepare_multiple A threads order res bits counts = Some out /\
    length out = length counts /\
    forall i c w, nth_error counts i = Some c -> nth_error bits i = Some w ->
      nth_error out i = Some (prepare_custom A w c).
Proof.
  intros L1 L2 H32 F P.
  assert (Hpos : 0 < list_sum counts).
  { destruct P as (ts & T & _). unfold thread_tasks, tasks_of in T.
    destruct (Nat.ltb_spec 0 threads); [|discriminate].
    destruct (Nat.ltb_spec 0 (chunk_size threads (list_sum counts))) as [C|]; [|discriminate].
    destruct (list_sum counts); [|lia]. unfold chunk_size in C. rewrite Nat.div_small in C; lia. }
  unfold prepare_multiple. rewrite L1, Nat.eqb_refl, F.
  set (combined := concat _). assert (CL : length combined = list_sum counts) by now apply combined_length.
  rewrite CL. rewrite (proj2 (Nat.ltb_lt _ _) Hpos).
  pose proof P as (ts & T & _). unfold thread_tasks in T. rewrite T.
  rewrite run_tasks_perm by (rewrite CL; eapply par_order_perm; eauto).
  set (g := fun (q : nat) (_ : pb) => prep_task A bits (running_sums counts) q).
  assert (G : forall i c w j x, nth_error counts i = Some c -> nth_error bits i = Some w -> j < c ->
     g (list_sum (firstn i counts) + j) x = Some (a_boot A w j)).
  { intros i c w j x Hc Hw Hj. unfold g, prep_task.
    assert (Hi : i < length counts) by (eapply nth_error_Some_lt; eauto).
    pose proof (sum_S _ _ _ Hc).
    rewrite (find_comp_ok counts i) by (unfold running_sums; cbn [length]; rewrite ?sums_length; lia).
    rewrite Hw, running_nth by lia. repeat f_equal. lia. }
  destruct (mapi_o g 0 combined) as [cells|] eqn:E.
  2: { exfalso. destruct (mapi_o_none _ _ _ _ _ E) as (q & x & Hx & Gq). cbn [plus] in Gq.
       assert (Hq : q < list_sum counts) by (apply nth_error_Some_lt in Hx; lia).
       destruct (locate counts q Hq) as (i & Hi & B).
       destruct (nth_error_lt _ _ _ Hi) as [c Hc]. destruct (nth_error_lt _ bits i) as [w Hw]; [lia|].
       pose proof (sum_S _ _ _ Hc).
       rewrite <- (Nat.sub_add (list_sum (firstn i counts)) q) in Gq by lia. rewrite Nat.add_comm in Gq.
       rewrite (G i c w) in Gq; auto; [discriminate|lia]. }
  destruct (mapi_o_nth _ _ _ _ _ _ E) as [ML MN].
  eexists; split; [reflexivity|]. split; [apply scatter_bits_length|].
  intros i c w Hc Hw. rewrite (scatter_nth _ _ _ _ Hc). f_equal.
  assert (Hi : i < length counts) by (eapply nth_error_Some_lt; eauto).
  assert (C32 : c <= 32).
  { rewrite forallb_forall in F. apply Nat.leb_le, F. eapply nth_error_In; eauto. }
  pose proof (sum_S _ _ _ Hc) as SS. pose proof (sum_le counts (S i)) as SL.
  set (s := list_sum (firstn i counts)) in *.
  unfold prepare_custom. apply nth_error_ext. intro j.
  assert (LF : length (firstn c (skipn s cells)) = c) by (rewrite firstn_length, skipn_length; lia).
  rewrite nth_error_map. destruct (le_lt_dec 32 j) as [Hj|Hj].
  - rewrite (proj2 (nth_error_None (seq 0 32) j)) by (rewrite seq_length; lia). cbn [option_map].
    apply nth_error_None. rewrite app_length, LF, repeat_length. lia.
  - rewrite nth_error_seq by auto. cbn [option_map plus].
    destruct (Nat.ltb_spec j c) as [Hjc|Hjc].
    + rewrite nth_error_app1 by lia.
      destruct (nth_error_lt _ combined (s + j)) as [x Hx]; [lia|].
      destruct (MN _ _ Hx) as (y & Gy & Hy). cbn [plus] in Gy. unfold s in Gy. rewrite (G i c w) in Gy by auto.
      injection Gy as <-. rewrite <- Hy.
      now apply nth_error_window.
    + rewrite nth_error_app2 by lia. rewrite LF. apply nth_error_repeat. lia.
Qed.
End Prep.
