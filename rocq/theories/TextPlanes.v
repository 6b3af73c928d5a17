(** * What the operations of the memory keep, for every set of operations, and
    which words the preparations give (helper lemmas of PropTextEnc.v) *)
Require Import ZArith List Bool Lia.
From Verif Require Import PropTextMem.
Require Verif.Word Verif.Glwe Verif.Par Verif.ParFacts Verif.EncMem Verif.MemOps Verif.Prepare Verif.PrepFacts Verif.ListFacts Verif.EncVM.
Module M := Verif.EncMem.
Module P := Verif.Prepare.
Module V := Verif.EncVM.
Module G := Verif.Glwe.
Import ListNotations.
Open Scope nat_scope.

Lemma mapi_keep : forall X Y Z (g : nat -> X -> option Y) (f : X -> Z) (f' : Y -> Z) l k ys,
  (forall i x y, g i x = Some y -> f' y = f x) -> ParFacts.mapi_o g k l = Some ys -> map f' ys = map f l.
Proof.
  intros X Y Z g f f' l. induction l as [|x l IH]; intros k ys H E; cbn in E.
  - injection E as <-. reflexivity.
  - destruct (g k x) as [y|] eqn:Q; [|discriminate].
    destruct (ParFacts.mapi_o g (S k) l) as [r|] eqn:R; [|discriminate]. injection E as <-.
    cbn. rewrite (H _ _ _ Q), (IH _ _ H R). reflexivity.
Qed.

Section Planes.
Context {ct pb fu : Type} (A : G.alg ct pb fu).
Variables (threads : nat) (order : list Par.task).

Definition ordered (n : nat) : Prop := threads <> 0 -> M.par_order threads n order.

Lemma region_keep : forall B Z (g : nat -> B -> option B) (f : B -> Z) cells out,
  ordered (length cells) -> (forall i x y, g i x = Some y -> f y = f x) ->
  M.region threads order g cells = Some out -> map f out = map f cells.
Proof.
  intros B Z g f cells out O H E.
  assert (NT : threads <> 0).
  { intros ->. unfold M.region, Par.thread_tasks, Par.tasks_of in E. discriminate E. }
  rewrite MemOps.region_eq in E by auto. eapply mapi_keep; eauto.
Qed.

Lemma planes_bits : forall (m m' : M.memory ct), planes32 m ->
  map (@M.ba_bits ct) (M.m_planes m') = map (@M.ba_bits ct) (M.m_planes m) -> M.m_bits m' = M.m_bits m ->
  planes32 m' /\ M.m_bits m' = M.m_bits m.
Proof.
  intros m m' (H1 & H2 & H3) E B. split; [|exact B]. split; [|split].
  - rewrite <- (map_length (@M.ba_bits ct)), E, map_length. exact H1.
  - rewrite B. apply Forall_forall. intros b Hb. apply (in_map (@M.ba_bits ct)) in Hb. rewrite E in Hb.
    apply in_map_iff in Hb as (b' & <- & Hb). rewrite Forall_forall in H2. auto.
  - rewrite B. exact H3.
Qed.

Ltac step H := match type of H with
  | match ?e with Some _ => _ | None => _ end = _ => let Q := fresh "Q" in destruct e eqn:Q; [|discriminate H]
  | (if ?e then _ else _) = _ => let Q := fresh "Q" in destruct e eqn:Q; [|discriminate H]
  end.

Lemma keep_stateless : forall (m : M.memory ct) addr off m' w, planes32 m -> ordered 32 ->
  M.mem_read_stateless A threads order m addr off = Some (m', w) ->
  planes32 m' /\ M.m_bits m' = M.m_bits m.
Proof.
  intros m addr off m' w HP O E. unfold M.mem_read_stateless in E. do 4 step E. injection E as <- <-.
  apply planes_bits; [exact HP| |reflexivity]. cbn [M.m_planes].
  apply (region_keep _ _ _ (fun c => M.ba_bits (fst c))) in Q1.
  - rewrite map_map, Q1. unfold M.with_out. rewrite map_map. reflexivity.
  - unfold M.with_out. rewrite map_length, (proj1 HP). exact O.
  - intros i x y H. step H. injection H as <-. reflexivity.
Qed.
Lemma keep_statefull : forall (m : M.memory ct) addr off m' w, planes32 m -> ordered 32 ->
  M.mem_read_statefull A threads order m addr off = Some (m', w) ->
  planes32 m' /\ M.m_bits m' = M.m_bits m.
Proof.
  intros m addr off m' w HP O E. unfold M.mem_read_statefull in E. do 4 step E. injection E as <- <-.
  apply planes_bits; [exact HP| |reflexivity]. cbn [M.m_planes].
  apply (region_keep _ _ _ (fun c => M.ba_bits (fst c))) in Q1.
  - rewrite map_map, Q1. unfold M.with_out. rewrite map_map. reflexivity.
  - unfold M.with_out. rewrite map_length, (proj1 HP). exact O.
  - intros i x y H. step H. destruct p as [b r]. injection H as <-. cbn [fst].
    unfold M.ba_read_statefull in Q3. do 4 step Q3. injection Q3 as <- _. reflexivity.
Qed.
Lemma keep_rev : forall (m : M.memory ct) w addr off m', planes32 m -> ordered 32 ->
  M.mem_read_statefull_rev A threads order m w addr off = Some m' ->
  planes32 m' /\ M.m_bits m' = M.m_bits m.
Proof.
  intros m w addr off m' HP O E. unfold M.mem_read_statefull_rev in E. do 3 step E. injection E as <-.
  apply planes_bits; [exact HP| |reflexivity]. cbn [M.m_planes].
  apply (region_keep _ _ _ (@M.ba_bits ct)) in Q1; [exact Q1| |].
  - rewrite (proj1 HP). exact O.
  - intros i x y H. unfold M.ba_read_statefull_rev in H. cbv zeta in H. do 4 step H. injection H as <-. reflexivity.
Qed.
Lemma keep_write : forall (m : M.memory ct) w addr off m', planes32 m -> ordered 32 ->
  M.mem_write A threads order m w addr off = Some m' ->
  planes32 m' /\ M.m_bits m' = M.m_bits m.
Proof.
  intros m w addr off m' HP O E. unfold M.mem_write in E. do 3 step E. injection E as <-.
  apply planes_bits; [exact HP| |reflexivity]. cbn [M.m_planes].
  apply (region_keep _ _ _ (@M.ba_bits ct)) in Q1; [exact Q1| |].
  - rewrite (proj1 HP). exact O.
  - intros i x y H. unfold M.ba_write in H. cbv zeta in H. do 6 step H. injection H as <-. reflexivity.
Qed.
Lemma keep_zero : forall (m : M.memory ct) addr m', planes32 m -> ordered 32 ->
  M.mem_zero A threads order m addr = Some m' ->
  planes32 m' /\ M.m_bits m' = M.m_bits m.
Proof.
  intros m addr m' HP O E. unfold M.mem_zero in E. do 2 step E. injection E as <-.
  apply planes_bits; [exact HP| |reflexivity]. cbn [M.m_planes].
  apply (region_keep _ _ _ (@M.ba_bits ct)) in Q0; [exact Q0| |].
  - rewrite (proj1 HP). exact O.
  - intros i x y H. unfold M.ba_zero in H. cbv zeta in H. do 2 step H. injection H as <-. reflexivity.
Qed.

(** the words [prepare_multiple] gives do not depend on the old contents *)
Lemma prepare_any : forall (res : list (list pb)) (words : list fu) counts,
  length res = length counts -> length words = length counts -> (0 < list_sum counts) ->
  Forall (fun r => length r = 32) res -> Forall (fun c => c <= 32) counts -> ordered (list_sum counts) ->
  P.prepare_multiple A threads order res words counts =
  (if threads =? 0 then None else Some (map (fun wc => P.prepare_custom A (fst wc) (snd wc)) (combine words counts))).
Proof.
  intros res words counts L1 L2 POS R32 C32 O.
  destruct (Nat.eqb_spec threads 0) as [E|NT].
  - unfold P.prepare_multiple.
    destruct (_ =? _); [|reflexivity]. destruct (forallb _ _); [|reflexivity]. cbv zeta.
    destruct (_ <? _); [|reflexivity]. rewrite E. reflexivity.
  - destruct (PrepFacts.prepare_multiple_ok A threads order res words counts) as (out & E & LO & NTH); auto.
    + intros r Hr. rewrite Forall_forall in R32. auto.
    + apply forallb_forall. intros c Hc. rewrite Forall_forall in C32. apply Nat.leb_le. auto.
    + rewrite E. f_equal. apply ListFacts.nth_error_ext.
      intro i.
      destruct (nth_error counts i) as [c|] eqn:EC.
      * destruct (nth_error words i) as [w|] eqn:EW.
        2: { apply nth_error_None in EW. assert (i < length counts) by (apply nth_error_Some; congruence). lia. }
        rewrite (NTH _ _ _ EC EW), nth_error_map.
        assert (CN : nth_error (combine words counts) i = Some (w, c)).
        { clear - EC EW. revert counts i EC EW. induction words as [|x xs IH]; intros [|d ds] [|i] EC EW; cbn in *; try discriminate; [congruence|auto]. }
        rewrite CN. reflexivity.
      * assert (length counts <= i) by (now apply nth_error_None).
        rewrite (proj2 (nth_error_None _ _)) by lia. symmetry. apply nth_error_None. rewrite map_length, combine_length. lia.
Qed.
Lemma prepare_custom_length : forall w c, length (P.prepare_custom A w c) = 32.
Proof. intros. unfold P.prepare_custom. now rewrite map_length, seq_length. Qed.
End Planes.
