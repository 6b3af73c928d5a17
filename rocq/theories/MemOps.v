(** Proofs about encrypted memory: the operations on all bit planes. *)
Require Import ZArith List Bool Lia Permutation.
Require Import Verif.Word Verif.ListFacts Verif.Bdd Verif.Glwe Verif.GlweFacts Verif.Par Verif.ParFacts
  Verif.EncMem Verif.MemSpec Verif.MemFacts.
Import ListNotations.
Open Scope nat_scope.

(** ** regions *)
Lemma par_order_perm threads len order : par_order threads len order -> Permutation (ident_tasks 0 len) order.
Proof.
  intros (ts & T & IL).
  assert (P : 0 < threads /\ 0 < len).
  { unfold thread_tasks, tasks_of in T. destruct (Nat.ltb_spec 0 threads); [|discriminate].
    destruct (Nat.ltb_spec 0 (chunk_size threads len)) as [C|]; [|discriminate].
    split; auto. destruct len; [|lia]. unfold chunk_size in C. rewrite Nat.div_small in C; lia. }
  destruct (thread_tasks_cover threads len) as (ts' & T' & E); try tauto.
  assert (ts' = ts) by congruence. subst. rewrite <- E. now apply interleave_perm.
Qed.
Lemma region_eq B threads order (g : nat -> B -> option B) cells :
  par_order threads (length cells) order -> region threads order g cells = mapi_o g 0 cells.
Proof.
  intro H. unfold region. pose proof H as (ts & T & _). rewrite T.
  apply run_tasks_perm. eapply par_order_perm; eauto.
Qed.

(** ** words *)
Lemma put_word_length ws a w : a < length ws -> length (put_word ws a w) = length ws.
Proof. intro H. unfold put_word. rewrite app_length. cbn [length]. rewrite firstn_length, skipn_length. lia. Qed.
Lemma put_word_upd ws : forall a w, a < length ws -> put_word ws a w = upd ws a w.
Proof.
  unfold put_word. induction ws as [|x ws IH]; intros [|a] w H; cbn [length] in *; try lia; cbn [firstn upd app]; auto.
  f_equal. apply IH. lia.
Qed.
Lemma put_word_nth ws a w k : a < length ws -> nth k (put_word ws a w) 0%Z = if k =? a then w else nth k ws 0%Z.
Proof.
  intro H. rewrite put_word_upd, upd_nth by auto. destruct (Nat.ltb_spec a (length ws)); [auto|lia].
Qed.
Lemma is_word_0 : is_word 0.
Proof. unfold is_word; lia. Qed.
Lemma nth_word ws a : Forall is_word ws -> is_word (nth a ws 0%Z).
Proof.
  intro F. destruct (le_lt_dec (length ws) a).
  - rewrite nth_overflow by auto. apply is_word_0.
  - rewrite Forall_forall in F. apply F, nth_In. auto.
Qed.
Lemma put_word_Forall ws a w : Forall is_word ws -> is_word w -> Forall is_word (put_word ws a w).
Proof.
  intros F W. unfold put_word. apply Forall_app; split; [|constructor; auto].
  - rewrite Forall_forall in *. intros x Hx. apply F. rewrite <- (firstn_skipn a ws). apply in_or_app; auto.
  - rewrite Forall_forall in *. intros x Hx. apply F. rewrite <- (firstn_skipn (S a) ws). apply in_or_app; auto.
Qed.

Section All.
Variable log : nat.
Notation I := (Ideal log).
Notation N := (ring log).

Lemma shape_bits (m : memory poly) ws i b : holds log m ws -> nth_error (m_planes m) i = Some b ->
  ba_bits b = m_bits m.
Proof. intros (_ & B & _ & _ & _ & H) Hb. destruct (H _ _ Hb) as [(B' & _) _]. congruence. Qed.
Lemma shape_cap (m : memory poly) ws i b : holds log m ws -> nth_error (m_planes m) i = Some b ->
  0 < length (ba_data b) /\ length ws <= N * length (ba_data b) /\ length ws <= 2 ^ m_bits m.
Proof.
  intros (_ & B & _ & _ & _ & H) Hb. destruct (H _ _ Hb) as [(B' & C & _) _].
  destruct (bit_len_bounds _ _ B) as (P & U & _). destruct (div_ceil_bounds _ _ _ C) as (_ & C1 & C2). tauto.
Qed.
Lemma holds_nonempty (m : memory poly) ws : holds log m ws -> nonempty m = true.
Proof.
  intro H. pose proof H as (_ & _ & _ & _ & L & _). unfold nonempty.
  destruct (m_planes m) as [|b r] eqn:E; [discriminate|].
  destruct (shape_cap m ws 0 b H) as (P & _); [now rewrite E|].
  destruct (ba_data b); auto. cbn in P; lia.
Qed.

(** assembling the results of the planes *)
Lemma all_written_map B (ds : list B) : all_written (map Some ds) = Some ds.
Proof. induction ds; cbn; auto. now rewrite IHds. Qed.

Lemma collect (g : nat -> bitarray poly * option poly -> option (bitarray poly * option poly)) (bs : list (bitarray poly))
   (R : nat -> bitarray poly -> bitarray poly -> poly -> Prop) k :
  (forall i b, nth_error bs i = Some b -> exists b' d, g (k + i) (b, None) = Some (b', Some d) /\ R (k + i) b b' d) ->
  exists bs' ds, mapi_o g k (map (fun b => (b, None)) bs) = Some (combine bs' (map Some ds)) /\
    length bs' = length bs /\ length ds = length bs /\
    forall i b b' d, nth_error bs i = Some b -> nth_error bs' i = Some b' -> nth_error ds i = Some d -> R (k + i) b b' d.
Proof.
  revert k; induction bs as [|b bs IH]; intros k H.
  - exists [], []. cbn. repeat split; auto. intros [|i]; discriminate.
  - destruct (H 0 b eq_refl) as (b' & d & G & HR). rewrite Nat.add_0_r in *.
    destruct (IH (S k)) as (bs' & ds & M & L1 & L2 & HH).
    { intros i c Hc. destruct (H (S i) c Hc) as (c' & e & G' & R'). exists c', e.
      now replace (S k + i) with (k + S i) by lia. }
    exists (b' :: bs'), (d :: ds). cbn. rewrite G, M. cbn. repeat split; auto.
    intros [|i] x x' e; cbn; intros.
    + rewrite Nat.add_0_r. congruence.
    + replace (k + S i) with (S k + i) by lia. eauto.
Qed.
Lemma map_fst_combine X Y (xs : list X) : forall (ys : list Y), length xs = length ys -> map fst (combine xs ys) = xs.
Proof. induction xs; intros [|y ys] L; cbn in *; try discriminate; auto. f_equal; auto. Qed.
Lemma map_snd_combine X Y (xs : list X) : forall (ys : list Y), length xs = length ys -> map snd (combine xs ys) = ys.
Proof. induction xs; intros [|y ys] L; cbn in *; try discriminate; auto. f_equal; auto. Qed.

Lemma pack_enc (ds : list poly) w : is_word w -> length ds = 32 ->
  (forall i d, nth_error ds i = Some d -> nth 0 d 0%Z = Z.b2z (Z.testbit w (Z.of_nat i))) ->
  enc_of (a_pack I ds) w.
Proof.
  intros W L H. split; auto. split; [now cbn; rewrite map_length|]. intros i Hi.
  cbn [a_pack Ideal]. destruct (nth_error_lt _ ds i) as [d Hd]; [lia|].
  apply nth_error_nth. rewrite nth_error_map, Hd. cbn. f_equal. eauto.
Qed.

Lemma addresses_bits addr offset k k' a : k = k' -> addresses addr offset k a -> addresses addr offset k' a.
Proof. now intros ->. Qed.

Lemma stateless_ok threads order (m : memory poly) ws addr offset a :
  holds log m ws -> par_order threads 32 order -> addresses addr offset (m_bits m) a ->
  exists c, mem_read_stateless I threads order m addr offset = Some (m, c) /\ enc_of c (nth a ws 0%Z).
Proof.
  intros H P Ha. unfold mem_read_stateless. rewrite (holds_nonempty _ _ H).
  pose proof H as (Hs & Hb & Hst & Hw & HL & HP). rewrite Hst. cbn [negb].
  rewrite region_eq by (unfold with_out; now rewrite map_length, HL).
  destruct (collect (fun _ c => do r <- ba_read_stateless I (fst c) addr offset; Some (fst c, Some r)) (m_planes m)
     (fun i b b' d => b' = b /\ nth 0 d 0%Z = Z.b2z (Z.testbit (nth a ws 0%Z) (Z.of_nat i))) 0)
    as (bs' & ds & M & L1 & L2 & HH).
  { intros i b Hib. destruct (HP _ _ Hib) as [Sh Co].
    destruct (ba_stateless log _ b addr offset a Sh) as (d & E & V).
    { eapply addresses_bits; [|exact Ha]. symmetry. eapply shape_bits; eauto. }
    exists b, d. cbn [fst plus]. rewrite E. repeat split. rewrite V.
    destruct (Nat.ltb_spec a (N * length (ba_data b))); [now apply Co|].
    rewrite nth_overflow; [now rewrite Z.testbit_0_l|].
    destruct (shape_cap m ws i b H Hib) as (_ & Q & _). lia. }
  unfold with_out. rewrite M. unfold pack_out.
  assert (L3 : length bs' = length (map Some ds)) by (rewrite map_length; lia).
  rewrite (map_snd_combine _ _ bs'), (map_fst_combine _ _ bs') by auto.
  rewrite all_written_map.
  assert (E : bs' = m_planes m).
  { apply nth_error_ext. intro n. destruct (le_lt_dec (length bs') n).
    - rewrite (proj2 (nth_error_None bs' n)), (proj2 (nth_error_None (m_planes m) n)) by lia. reflexivity.
    - destruct (nth_error_lt _ bs' n) as [b' Hb']; auto. destruct (nth_error_lt _ (m_planes m) n) as [b Hbb]; [lia|].
      destruct (nth_error_lt _ ds n) as [d Hd]; [lia|]. destruct (HH _ _ _ _ Hbb Hb' Hd) as [-> _]. congruence. }
  rewrite E. eexists; split; [destruct m; cbn in *; subst; reflexivity|].
  apply pack_enc; [now apply nth_word|lia|].
  intros i d Hd. assert (Hi : i < length (m_planes m)) by (apply nth_error_Some_lt in Hd; lia).
  destruct (nth_error_lt _ _ _ Hi) as [b Hbb].
  eapply (HH i b b d); eauto. now rewrite E.
Qed.

(** planes after the update of word [a] *)
Lemma holds_upd (m : memory poly) ws a v bs : holds log m ws -> a < length ws -> is_word v ->
  length bs = 32 ->
  (forall i b b', nth_error (m_planes m) i = Some b -> nth_error bs i = Some b' ->
     b' = BitArray (set_coef (ba_data b) (a / N) (a mod N) (Z.b2z (Z.testbit v (Z.of_nat i)))) (ba_bits b)) ->
  holds log (Memory bs (m_size m) (m_bits m) false) (put_word ws a v).
Proof.
  intros H Ha Hv L HH. pose proof H as (Hs & Hb & Hst & Hw & HL & HP).
  unfold holds. cbn [m_size m_bits m_state m_planes]. rewrite put_word_length by auto.
  split; auto. split; auto. split; auto. split; [now apply put_word_Forall|]. split; auto.
  intros i b' Hb'. destruct (nth_error_lt _ (m_planes m) i) as [b Hbb].
  { apply nth_error_Some_lt in Hb'. lia. }
  destruct (HP _ _ Hbb) as [Sh Co]. destruct (shape_cap m ws i b H Hbb) as (P & Q & _).
  assert (B : a < N * length (ba_data b)) by lia.
  rewrite (HH _ _ _ Hbb Hb'). split.
  - apply set_coef_shape; auto. apply Nat.div_lt_upper_bound; [pose proof (ring_pos log)|]; lia.
  - cbn [ba_data]. unfold set_coef at 1. rewrite upd_length. intros k Hk.
    rewrite (set_coef_coef log (length ws)) by auto.
    rewrite put_word_nth by auto. destruct (k =? a); auto.
Qed.

Lemma rev_collect (g : nat -> bitarray poly -> option (bitarray poly)) (bs : list (bitarray poly)) (f : nat -> bitarray poly -> bitarray poly) :
  (forall i b, nth_error bs i = Some b -> g i b = Some (f i b)) ->
  exists bs', mapi_o g 0 bs = Some bs' /\ length bs' = length bs /\
    forall i b b', nth_error bs i = Some b -> nth_error bs' i = Some b' -> b' = f i b.
Proof.
  intro H. destruct (mapi_o g 0 bs) as [bs'|] eqn:E.
  - destruct (mapi_o_nth _ _ _ _ _ _ E) as [L HN]. exists bs'. repeat split; auto.
    intros i b b' Hb Hb'. destruct (HN _ _ Hb) as (y & G & Y). cbn in G. rewrite H in G by auto. congruence.
  - destruct (mapi_o_none _ _ _ _ _ E) as (i & x & Hx & G). cbn in G. rewrite H in G by auto. discriminate.
Qed.

(** the plane update at an in-range address *)
Lemma slots (m : memory poly) ws i b addr offset a : holds log m ws -> a < length ws ->
  addresses addr offset (m_bits m) a -> nth_error (m_planes m) i = Some b ->
  slot_poly log (ba_bits b) (length (ba_data b)) addr offset = a / N /\
  slot_coef log (ba_bits b) addr offset = a mod N /\ offset + ba_bits b <= length addr.
Proof.
  intros H Ha A Hb. destruct (shape_cap m ws i b H Hb) as (P & Q & _).
  pose proof (shape_bits _ _ _ _ H Hb) as E.
  pose proof H as (_ & _ & _ & _ & _ & HP). destruct (HP _ _ Hb) as [(S1 & S2 & _) _].
  rewrite <- E in A. repeat split.
  - apply slot_poly_of; auto. lia.
  - now apply slot_coef_of.
  - destruct A; lia.
Qed.

Lemma statefull_ok threads order (m : memory poly) ws addr offset a :
  holds log m ws -> a < length ws -> par_order threads 32 order -> addresses addr offset (m_bits m) a ->
  exists m1 c, mem_read_statefull I threads order m addr offset = Some (m1, c) /\
    enc_of c (nth a ws 0%Z) /\ m_state m1 = true /\
    forall threads' order' w v, par_order threads' 32 order' -> enc_of w v ->
      exists m2, mem_read_statefull_rev I threads' order' m1 w addr offset = Some m2 /\ holds log m2 (put_word ws a v).
Proof.
  intros H Hlt P Ha. unfold mem_read_statefull. rewrite (holds_nonempty _ _ H).
  pose proof H as (Hs & Hb & Hst & Hw & HL & HP). rewrite Hst. cbn [negb].
  rewrite region_eq by (unfold with_out; now rewrite map_length, HL).
  destruct (collect (fun _ c => do (b, r) <- ba_read_statefull I (fst c) addr offset; Some (b, Some r)) (m_planes m)
     (fun i b b' d => ba_bits b' = ba_bits b /\ length (ba_data b') = length (ba_data b) /\
        nth 0 d 0%Z = Z.b2z (Z.testbit (nth a ws 0%Z) (Z.of_nat i)) /\
        forall c, ba_read_statefull_rev I b' (const_poly log c) addr offset
            = Some (BitArray (set_coef (ba_data b) (a / N) (a mod N) c) (ba_bits b))) 0)
    as (bs' & ds & M & L1 & L2 & HH).
  { intros i b Hib. destruct (HP _ _ Hib) as [Sh Co].
    destruct (slots m ws i b addr offset a H Hlt Ha Hib) as (S1 & S2 & S3).
    destruct (shape_cap m ws i b H Hib) as (Pd & Q & _).
    pose proof Sh as (_ & _ & Fp).
    destruct (ba_statefull log b addr offset Pd Fp S3) as (b1 & d & E & B1 & B2 & V & W).
    rewrite S1, S2 in *.
    exists b1, d. cbn [fst plus]. rewrite E. repeat split; auto. rewrite V.
    rewrite <- Co by lia. reflexivity. }
  unfold with_out. rewrite M. unfold pack_out.
  assert (L3 : length bs' = length (map Some ds)) by (rewrite map_length; lia).
  rewrite (map_snd_combine _ _ bs'), (map_fst_combine _ _ bs') by auto.
  rewrite all_written_map.
  eexists _, _. split; [reflexivity|]. split; [|split; [reflexivity|]].
  - apply pack_enc; [now apply nth_word|lia|].
    intros i d Hd. assert (Hi : i < length (m_planes m)) by (apply nth_error_Some_lt in Hd; lia).
    destruct (nth_error_lt _ _ _ Hi) as [b Hbb]. destruct (nth_error_lt _ bs' i) as [b' Hb']; [lia|].
    now destruct (HH _ _ _ _ Hbb Hb' Hd) as (_ & _ & V & _).
  - intros threads' order' w v P' (Wv & Lw & Hwv). unfold mem_read_statefull_rev. cbn [m_state m_planes m_size m_bits].
    assert (NE : nonempty (Memory bs' (m_size m) (m_bits m) true) = true).
    { pose proof (holds_nonempty _ _ H) as NE. unfold nonempty in *. cbn [m_planes].
      destruct (m_planes m) as [|b r] eqn:Em; [discriminate|]. destruct bs' as [|b' r']; [discriminate|].
      destruct ds as [|d ds]; [discriminate|].
      destruct (HH 0 b b' d eq_refl eq_refl eq_refl) as (_ & Ld & _).
      destruct (ba_data b'); auto. cbn in Ld. destruct (ba_data b); [discriminate|cbn in Ld; lia]. }
    rewrite NE. rewrite region_eq by (now rewrite L1, HL).
    destruct (mapi_o (fun i b => ba_read_statefull_rev I b (a_bit I w i) addr offset) 0 bs') as [bs2|] eqn:E2.
    + destruct (mapi_o_nth _ _ _ _ _ _ E2) as [L4 HN].
      eexists; split; [reflexivity|].
      apply holds_upd; auto; [lia|].
      intros i b b2 Hbb Hb2. destruct (nth_error_lt _ bs' i) as [b' Hb']. { apply nth_error_Some_lt in Hbb; lia. }
      destruct (nth_error_lt _ ds i) as [d Hd]. { apply nth_error_Some_lt in Hbb; lia. }
      destruct (HH _ _ _ _ Hbb Hb' Hd) as (_ & _ & _ & W).
      destruct (HN _ _ Hb') as (y & G & Y). cbn [plus] in G. change (a_bit I w i) with (const_poly log (nth i w 0%Z)) in G.
      rewrite W in G. rewrite Hwv in G by (apply nth_error_Some_lt in Hbb; lia). congruence.
    + exfalso. destruct (mapi_o_none _ _ _ _ _ E2) as (i & b' & Hb' & G). cbn [plus] in G.
      destruct (nth_error_lt _ (m_planes m) i) as [b Hbb]. { apply nth_error_Some_lt in Hb'; lia. }
      destruct (nth_error_lt _ ds i) as [d Hd]. { apply nth_error_Some_lt in Hb'; lia. }
      destruct (HH _ _ _ _ Hbb Hb' Hd) as (_ & _ & _ & W).
      change (a_bit I w i) with (const_poly log (nth i w 0%Z)) in G. rewrite W in G. discriminate.
Qed.

Lemma write_ok threads order (m : memory poly) ws addr offset a w v :
  holds log m ws -> a < length ws -> par_order threads 32 order -> addresses addr offset (m_bits m) a -> enc_of w v ->
  exists m', mem_write I threads order m w addr offset = Some m' /\ holds log m' (put_word ws a v).
Proof.
  intros H Hlt P Ha (Wv & Lw & Hwv). unfold mem_write. rewrite (holds_nonempty _ _ H).
  pose proof H as (Hs & Hb & Hst & Hw & HL & HP). rewrite Hst. cbn [negb].
  rewrite region_eq by (now rewrite HL).
  destruct (rev_collect (fun i b => ba_write I b (a_bit I w i) addr offset) (m_planes m)
    (fun i b => BitArray (set_coef (ba_data b) (a / N) (a mod N) (Z.b2z (Z.testbit v (Z.of_nat i)))) (ba_bits b)))
    as (bs & M & L & HH).
  { intros i b Hib. destruct (slots m ws i b addr offset a H Hlt Ha Hib) as (S1 & S2 & S3).
    destruct (shape_cap m ws i b H Hib) as (Pd & Q & _). destruct (HP _ _ Hib) as [(_ & _ & Fp) _].
    change (a_bit I w i) with (const_poly log (nth i w 0%Z)).
    rewrite (ba_write_eq log b addr offset Pd Fp S3). rewrite S1, S2, Hwv; auto.
    apply nth_error_Some_lt in Hib; lia. }
  rewrite M. eexists; split; [reflexivity|]. apply holds_upd; auto. lia.
Qed.

(** ** clearing *)
(** the word that [zero(addr)] really clears *)
Definition cleared (addr : nat) : nat := addr / N * N + (addr / N) mod N.

Lemma cleared_div addr : cleared addr / N = addr / N /\ cleared addr mod N = (addr / N) mod N.
Proof.
  unfold cleared. pose proof (ring_pos log). pose proof (Nat.mod_upper_bound (addr / N) N ltac:(lia)).
  split.
  - symmetry. apply Nat.div_unique with ((addr / N) mod N); lia.
  - symmetry. apply Nat.mod_unique with (addr / N); lia.
Qed.

Lemma ba_zero_eq (b : bitarray poly) addr : addr / N < length (ba_data b) ->
  Forall (fun p : poly => length p = N) (ba_data b) ->
  ba_zero I addr b = Some (BitArray (set_coef (ba_data b) (cleared addr / N) (cleared addr mod N) 0%Z) (ba_bits b)).
Proof.
  intros H F. destruct (cleared_div addr) as [C1 C2]. rewrite C1, C2.
  unfold ba_zero, zero_idx_of, zero_poly_of. cbn [log_n Ideal a_rot a_sub a_trace].
  destruct (nth_error_lt _ _ _ H) as [p Hp]. rewrite Hp.
  pose proof (nth_error_Forall _ (fun p : poly => length p = N) _ _ _ F Hp) as Lp. cbn in Lp.
  rewrite erase by apply rotate_length. pose proof (ring_pos log).
  rewrite rotate_write by (auto; apply Nat.mod_upper_bound; lia).
  rewrite set_nth_upd by auto. unfold set_coef. now rewrite (nth_error_nth _ _ [] Hp).
Qed.

Lemma zero_ok threads order (m : memory poly) ws addr :
  holds log m ws -> addr < length ws -> par_order threads 32 order ->
  exists m', mem_zero I threads order m addr = Some m' /\
    holds log m' (if cleared addr <? length ws then put_word ws (cleared addr) 0%Z else ws).
Proof.
  intros H Hlt P. unfold mem_zero. rewrite (holds_nonempty _ _ H).
  pose proof H as (Hs & Hb & Hst & Hw & HL & HP). rewrite Hst.
  rewrite region_eq by (now rewrite HL).
  destruct (cleared_div addr) as [C1 C2]. pose proof (ring_pos log) as NP.
  destruct (rev_collect (fun _ b => ba_zero I addr b) (m_planes m)
    (fun i b => BitArray (set_coef (ba_data b) (cleared addr / N) (cleared addr mod N) 0%Z) (ba_bits b)))
    as (bs & M & L & HH).
  { intros i b Hib. destruct (shape_cap m ws i b H Hib) as (Pd & Q & _). destruct (HP _ _ Hib) as [(_ & _ & Fp) _].
    apply ba_zero_eq; auto. apply Nat.div_lt_upper_bound; lia. }
  rewrite M. eexists; split; [reflexivity|].
  destruct (Nat.ltb_spec (cleared addr) (length ws)) as [B|B].
  - apply holds_upd; auto; [apply is_word_0|lia|]. intros i b b' Hib Hb'. rewrite Z.testbit_0_l. eauto.
  - unfold holds. cbn [m_size m_bits m_state m_planes]. repeat split; auto; [lia|..]; intros.
    all: destruct (nth_error_lt _ (m_planes m) i) as [b0 Hb0]; [apply nth_error_Some_lt in H0; lia|];
      destruct (HP _ _ Hb0) as [Sh Co]; rewrite (HH _ _ _ Hb0 H0);
      destruct (shape_cap m ws i b0 H Hb0) as (Pd & Q & _);
      assert (A1 : addr / N < length (ba_data b0)) by (apply Nat.div_lt_upper_bound; lia).
    1: apply (set_coef_shape log (length ws)); auto; rewrite C1; auto.
    1: apply (set_coef_shape log (length ws)); auto; rewrite C1; auto.
    1: apply (set_coef_shape log (length ws)); auto; rewrite C1; auto.
    rewrite (HH _ _ _ Hb0 H0) in H1. cbn [ba_data] in H1. unfold set_coef in H1. rewrite upd_length in H1.
    rewrite (set_coef_coef log (length ws)); auto.
    + rewrite Co by auto. destruct (Nat.eqb_spec a (cleared addr)); auto. subst.
      rewrite nth_overflow by auto. now rewrite Z.testbit_0_l.
    + pose proof (Nat.div_mod (cleared addr) N ltac:(lia)) as D. rewrite C1 in D.
      pose proof (Nat.mod_upper_bound (cleared addr) N ltac:(lia)). nia.
Qed.
End All.
