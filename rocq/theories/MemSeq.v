(** Proofs about sequences of memory operations. *)
Require Import ZArith List Bool Lia Permutation.
Require Import Verif.Word Verif.ListFacts Verif.Glwe Verif.GlweFacts Verif.Par Verif.ParFacts
  Verif.EncMem Verif.MemSpec Verif.MemOps Verif.MemClient.
Import ListNotations.
Open Scope nat_scope.

Lemma mem_calls_app log m xs ys :
  mem_calls log m (xs ++ ys) =
  do (m1, o1) <- mem_calls log m xs; do (m2, o2) <- mem_calls log m1 ys; Some (m2, o1 ++ o2).
Proof.
  revert m; induction xs as [|x xs IH]; intro m; cbn [app mem_calls].
  - destruct (mem_calls log m ys) as [[m2 o2]|]; reflexivity.
  - destruct (mem_call log m x) as [[m1 o1]|]; auto. rewrite IH.
    destruct (mem_calls log m1 xs) as [[m2 o2]|]; auto.
    destruct (mem_calls log m2 ys) as [[m3 o3]|]; auto. now rewrite app_assoc.
Qed.

Lemma op_ok log m ws o cs : holds log m ws -> realises (length ws) (m_bits m) o cs ->
  exists m' outs, mem_calls log m cs = Some (m', outs) /\
    holds log m' (fst (arr_step ws o)) /\ length (fst (arr_step ws o)) = length ws /\
    Forall2 enc_of outs (snd (arr_step ws o)).
Proof.
  intros H R. destruct R; cbn [mem_calls mem_call c_op c_threads c_order arr_step fst snd].
  - destruct (stateless_ok log t s m ws addr o a H) as (c & E & Hc); auto. rewrite E.
    eexists _, _. split; [reflexivity|]. split; auto. split; auto. repeat constructor; apply Hc.
  - destruct (statefull_ok log t1 s1 m ws addr o a H) as (m1 & c & E & Hc & _ & W); auto. rewrite E.
    destruct (W t2 s2 w v) as (m2 & E2 & HH); auto. rewrite E2.
    eexists _, _. split; [reflexivity|]. split; auto. split; [now apply put_word_length|].
    cbn. repeat constructor; apply Hc.
  - destruct (write_ok log t s m ws addr o a w v H) as (m1 & E & HH); auto. rewrite E.
    eexists _, _. split; [reflexivity|]. split; auto. split; [now apply put_word_length|]. constructor.
Qed.

Lemma bits_fixed log m ws m' ws' : holds log m ws -> holds log m' ws' -> length ws' = length ws -> m_bits m' = m_bits m.
Proof. intros (_ & B & _) (_ & B' & _) L. rewrite L in B'. congruence. Qed.

Lemma seq_ok log os : forall m ws css, holds log m ws ->
  Forall2 (realises (length ws) (m_bits m)) os css ->
  exists m' outs, mem_calls log m (concat css) = Some (m', outs) /\
    holds log m' (fst (arr_run ws os)) /\ Forall2 enc_of outs (snd (arr_run ws os)).
Proof.
  induction os as [|o os IH]; intros m ws css H F; inversion F as [|? cs ? css' R F']; subst.
  - exists m, []. cbn. split; [reflexivity|]. split; [exact H|constructor].
  - cbn [concat]. rewrite mem_calls_app.
    destruct (op_ok log m ws o cs H R) as (m1 & o1 & E1 & H1 & L1 & F1). rewrite E1.
    cbn [arr_run]. destruct (arr_step ws o) as [ws1 p1]. cbn [fst snd] in *.
    destruct (IH m1 ws1 css' H1) as (m2 & o2 & E2 & H2 & F2).
    { rewrite L1, (bits_fixed log m ws m1 ws1); auto. }
    rewrite E2. destruct (arr_run ws1 os) as [ws2 p2]. cbn [fst snd] in *.
    eexists _, _. split; [reflexivity|]. split; auto. now apply Forall2_app.
Qed.

(** ** protocol *)
Lemma flag_step log m c m' o : mem_call log m c = Some (m', o) ->
  protocol (m_state m) [c_op c] = Some (m_state m').
Proof.
  unfold mem_call. destruct (c_op c); cbn [protocol];
  unfold mem_read_stateless, mem_read_statefull, mem_read_statefull_rev, mem_write, mem_zero;
  destruct (nonempty m); try (destruct (m_state m); discriminate);
  destruct (m_state m) eqn:S; cbn [negb]; try discriminate; intro E;
  repeat match type of E with context [match ?x with _ => _ end] =>
           lazymatch x with
           | region _ _ _ _ => destruct x; try discriminate
           | pack_out _ _ => destruct x; try discriminate
           end end; injection E as <- _; cbn; auto.
Qed.
Lemma protocol_app xs : forall p ys, protocol p (xs ++ ys) = do q <- protocol p xs; protocol q ys.
Proof. induction xs as [|[] xs IH]; intros [] ys; cbn; auto. Qed.
Lemma flag_ok log cs : forall m m' o, mem_calls log m cs = Some (m', o) ->
  protocol (m_state m) (map c_op cs) = Some (m_state m').
Proof.
  induction cs as [|c cs IH]; intros m m' o E; cbn [mem_calls map] in *.
  - injection E as <- _. reflexivity.
  - destruct (mem_call log m c) as [[m1 o1]|] eqn:C; [|discriminate].
    destruct (mem_calls log m1 cs) as [[m2 o2]|] eqn:D; [|discriminate]. injection E as <- _.
    change (c_op c :: map c_op cs) with ([c_op c] ++ map c_op cs).
    rewrite protocol_app, (flag_step _ _ _ _ _ C). eapply IH; eauto.
Qed.

Section Any.
Context {ct pb fu : Type} (A : alg ct pb fu).
Lemma pending_refuses t s (m : memory ct) addr o w : m_state m = true ->
  mem_read_stateless A t s m addr o = None /\ mem_read_statefull A t s m addr o = None /\
  mem_write A t s m w addr o = None.
Proof.
  intro H. unfold mem_read_stateless, mem_read_statefull, mem_write. rewrite H. cbn [negb].
  destruct (nonempty m); auto.
Qed.
Lemma ready_refuses t s (m : memory ct) addr o w : m_state m = false ->
  mem_read_statefull_rev A t s m w addr o = None.
Proof. intro H. unfold mem_read_statefull_rev. now rewrite H. Qed.

(** ** schedules *)
Lemma region_any {B} t1 o1 t2 o2 (g : nat -> B -> option B) cells :
  par_order t1 (length cells) o1 -> par_order t2 (length cells) o2 ->
  region t1 o1 g cells = region t2 o2 g cells.
Proof. intros. now rewrite !region_eq. Qed.
Lemma schedule_any t1 o1 t2 o2 (m : memory ct) addr o w a :
  par_order t1 (length (m_planes m)) o1 -> par_order t2 (length (m_planes m)) o2 ->
  mem_read_stateless A t1 o1 m addr o = mem_read_stateless A t2 o2 m addr o /\
  mem_read_statefull A t1 o1 m addr o = mem_read_statefull A t2 o2 m addr o /\
  mem_read_statefull_rev A t1 o1 m w addr o = mem_read_statefull_rev A t2 o2 m w addr o /\
  mem_write A t1 o1 m w addr o = mem_write A t2 o2 m w addr o /\
  mem_zero A t1 o1 m a = mem_zero A t2 o2 m a.
Proof.
  intros H1 H2. unfold mem_read_stateless, mem_read_statefull, mem_read_statefull_rev, mem_write, mem_zero.
  repeat split; rewrite ?(region_any t1 o1 t2 o2) by (unfold with_out; rewrite ?map_length; auto); reflexivity.
Qed.
End Any.

Lemma order_once t len o : par_order t len o -> Permutation o (map (fun i => (i, i)) (seq 0 len)).
Proof.
  intro H. apply par_order_perm in H. apply Permutation_sym.
  replace (map (fun i => (i, i)) (seq 0 len)) with (ident_tasks 0 len); auto.
Qed.
Lemma order_exists t len : 0 < t -> 0 < len -> exists o, par_order t len o.
Proof.
  intros Ht Hl. destruct (thread_tasks_cover t len Ht Hl) as (ts & E & _).
  exists (concat ts), ts. split; auto. apply interleave_seq.
Qed.
Lemma order_none t len o : t = 0 \/ len = 0 -> ~ par_order t len o.
Proof.
  intros H (ts & T & _). unfold thread_tasks, tasks_of in T.
  destruct (Nat.ltb_spec 0 t); [|discriminate].
  destruct (Nat.ltb_spec 0 (chunk_size t len)) as [C|]; [|discriminate].
  destruct len; [|lia]. unfold chunk_size in C. rewrite Nat.div_small in C; lia.
Qed.

(** ** corollaries *)
Lemma zero_right log threads order (m : memory poly) ws addr :
  holds log m ws -> addr < length ws -> par_order threads 32 order ->
  addr mod ring log = (addr / ring log) mod ring log ->
  exists m', mem_zero (Ideal log) threads order m addr = Some m' /\ holds log m' (put_word ws addr 0%Z).
Proof.
  intros H Ha P E. destruct (zero_ok log threads order m ws addr H Ha P) as (m' & Z & Hm).
  exists m'. split; auto. unfold cleared in Hm. rewrite <- E in Hm.
  assert (Hp : 0 < ring log) by apply GlweFacts.ring_pos.
  pose proof (Nat.div_mod addr (ring log) ltac:(lia)) as D. rewrite (Nat.mul_comm (addr / ring log)) in Hm.
  rewrite <- D in Hm. now rewrite (proj2 (Nat.ltb_lt _ _) Ha) in Hm.
Qed.
Lemma round_trip log size (m : memory poly) data : 0 < size -> mem_alloc (Ideal log) 32 size = Some m ->
  Forall is_word data -> length data <= size ->
  exists m', mem_encrypt log m data = Some m' /\
    mem_decrypt m' (repeat 0%Z size) = Some (data ++ repeat 0%Z (size - length data)) /\
    mem_decrypt m' (repeat 0%Z (length data)) = Some data.
Proof.
  intros Hs E F L. destruct (alloc_shaped log size Hs) as (m0 & E0 & H0).
  assert (m0 = m) by congruence. subst m0.
  pose proof (holds_shaped log _ _ H0) as S. rewrite repeat_length in S.
  pose proof (encrypt_eq log size m data S F) as Q.
  assert (D : length data / 32 <= size).
  { pose proof (Nat.div_le_upper_bound (length data) 32 (length data) ltac:(lia) ltac:(lia)). lia. }
  rewrite (proj2 (Nat.leb_le _ _) D) in Q. destruct Q as (m' & E' & H'). exists m'. split; auto.
  assert (Z0 : forall n, Forall is_word (repeat 0%Z n)).
  { intro n. apply Forall_forall. intros x Hx. apply repeat_spec in Hx. subst. apply is_word_0. }
  assert (PE : padded size data = data ++ repeat 0%Z (size - length data)).
  { unfold padded. rewrite firstn_app, firstn_all2 by auto. f_equal.
    replace size with ((size - length data) + length data) at 2 by lia.
    rewrite repeat_app, firstn_app, firstn_all2, repeat_length by (rewrite repeat_length; lia).
    rewrite Nat.sub_diag, firstn_O, app_nil_r. reflexivity. }
  split.
  - rewrite (decrypt_eq log m' (padded size data)); auto; rewrite ?repeat_length, ?padded_length.
    + rewrite firstn_all2 by (rewrite padded_length; lia).
      rewrite skipn_all2 by (rewrite repeat_length; lia). now rewrite app_nil_r, PE.
    + apply Nat.div_le_upper_bound; lia.
  - rewrite (decrypt_eq log m' (padded size data)); auto; rewrite ?repeat_length, ?padded_length; auto.
    rewrite skipn_all2 by (rewrite repeat_length; lia). rewrite app_nil_r, PE, firstn_app, firstn_all2 by lia.
    now rewrite Nat.sub_diag, firstn_O, app_nil_r.
Qed.
