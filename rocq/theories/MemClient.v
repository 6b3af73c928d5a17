(** Proofs about encryption and decryption of memories. *)
Require Import ZArith List Bool Lia.
Require Import Verif.Word Verif.ListFacts Verif.Glwe Verif.GlweFacts Verif.Par Verif.ParFacts
  Verif.EncMem Verif.MemSpec Verif.MemFacts Verif.MemOps.
Import ListNotations.
Open Scope nat_scope.

Lemma skipn_app_ge A (n : nat) (l1 l2 : list A) : length l1 <= n -> skipn n (l1 ++ l2) = skipn (n - length l1) l2.
Proof. intro H. rewrite skipn_app, skipn_all2; auto. Qed.

Lemma chunks_nth A c : 0 < c -> forall fuel (xs : list A) k, length xs <= fuel ->
  nth_error (chunks_of fuel c xs) k = if k * c <? length xs then Some (firstn c (skipn (k * c) xs)) else None.
Proof.
  intros Hc fuel; induction fuel; intros xs k H.
  - destruct xs; [|cbn in H; lia]. cbn. now destruct k.
  - destruct xs as [|x xs].
    + cbn [chunks_of length]. destruct k; auto.
    + cbn [chunks_of]. destruct k as [|k].
      * cbn [nth_error Nat.mul]. destruct (Nat.ltb_spec 0 (length (x :: xs))); [reflexivity|cbn in *; lia].
      * cbn [nth_error]. rewrite IHfuel by (rewrite skipn_length; cbn [length] in *; lia).
        rewrite skipn_length, skipn_skipn.
        replace (S k * c) with (c + k * c) by lia.
        destruct (Nat.ltb_spec (k * c) (length (x :: xs) - c)); destruct (Nat.ltb_spec (c + k * c) (length (x :: xs))); try lia; auto.
Qed.

Lemma zip_over_nth X Y (f : X -> Y -> Y) : forall xs ys k,
  nth_error (zip_over f xs ys) k =
  match nth_error ys k with
  | None => None
  | Some y => match nth_error xs k with Some x => Some (f x y) | None => Some y end
  end.
Proof.
  induction xs as [|x xs IH]; intros [|y ys] [|k]; cbn; auto.
  now destruct (nth_error ys k).
Qed.
Lemma zip_over_length X Y (f : X -> Y -> Y) : forall xs ys, length (zip_over f xs ys) = length ys.
Proof. induction xs as [|x xs IH]; intros [|y ys]; cbn; auto. Qed.

Lemma nth_firstn_lt A (l : list A) d : forall k n, k < n -> nth k (firstn n l) d = nth k l d.
Proof. induction l; intros [|k] [|n] H; cbn; auto; try lia. apply IHl. lia. Qed.

Section Client.
Variable log : nat.
Notation N := (ring log).

Lemma pad_length c : length (pad log c) = N.
Proof. unfold pad. rewrite firstn_length, app_length. unfold zero_poly. rewrite repeat_length. lia. Qed.
Lemma pad_nth c j : j < N -> nth j (pad log c) 0%Z = nth j c 0%Z.
Proof.
  intro H. unfold pad. rewrite nth_firstn_lt by auto.
  destruct (le_lt_dec (length c) j).
  - rewrite app_nth2, (nth_overflow c) by auto. unfold zero_poly. apply nth_repeat.
  - now rewrite app_nth1.
Qed.

(** the shape a memory keeps from its allocation on *)
Definition shaped (size : nat) (m : memory poly) : Prop :=
  m_size m = size /\ bit_len_pred (Z.of_nat size) = Some (m_bits m) /\ m_state m = false /\
  length (m_planes m) = 32 /\ forall i b, nth_error (m_planes m) i = Some b -> plane_shape log size b.
Lemma holds_shaped m ws : holds log m ws -> shaped (length ws) m.
Proof.
  intros (H1 & H2 & H3 & H4 & H5 & H6). unfold shaped. repeat split; auto; now apply (H6 _ _ H).
Qed.

Lemma alloc_shaped size : 0 < size ->
  exists m, mem_alloc (Ideal log) 32 size = Some m /\ holds log m (repeat 0%Z size).
Proof.
  intro H. unfold mem_alloc, ba_alloc.
  destruct (bit_len_pred (Z.of_nat size)) as [k|] eqn:B.
  2: { unfold bit_len_pred in B. destruct (Z.leb_spec (Z.of_nat size) 0); [lia|discriminate]. }
  destruct (div_ceil size (ring (log_n (Ideal log)))) as [c|] eqn:C.
  2: { cbn [log_n Ideal] in C. pose proof (ring_pos log). destruct N; [lia|discriminate]. }
  eexists; split; [reflexivity|]. unfold holds. cbn [m_size m_bits m_state m_planes].
  rewrite !repeat_length. repeat split; auto.
  - apply Forall_forall. intros x Hx. apply repeat_spec in Hx. subst. apply is_word_0.
  - apply nth_error_In, repeat_spec in H0. subst. exact B.
  - apply nth_error_In, repeat_spec in H0. subst. cbn [ba_data]. rewrite repeat_length. exact C.
  - apply nth_error_In, repeat_spec in H0. subst. cbn [ba_data].
    apply Forall_forall. intros x Hx. apply repeat_spec in Hx. subst. apply repeat_length.
  - intros a Ha. apply nth_error_In, repeat_spec in H0. subst. unfold coef. cbn [ba_data] in *.
    rewrite repeat_length in Ha.
    assert (E : nth (a / N) (repeat (a_zero (Ideal log)) c) [] = zero_poly log).
    { apply nth_error_nth. rewrite nth_error_repeat; auto. apply Nat.div_lt_upper_bound; [pose proof (ring_pos log)|]; lia. }
    rewrite E. unfold zero_poly. rewrite nth_repeat.
    assert (E2 : nth a (repeat 0%Z size) 0%Z = 0%Z) by apply nth_repeat.
    now rewrite E2, Z.testbit_0_l.
Qed.

(** ** encryption *)
Definition padded (size : nat) (data : list Z) : list Z := firstn size (data ++ repeat 0%Z size).
Lemma padded_length size data : length (padded size data) = size.
Proof. unfold padded. rewrite firstn_length, app_length, repeat_length. lia. Qed.
Lemma padded_nth size data a : a < size -> nth a (padded size data) 0%Z = nth a data 0%Z.
Proof.
  intro H. unfold padded. rewrite nth_firstn_lt by auto.
  destruct (le_lt_dec (length data) a).
  - rewrite app_nth2, (nth_overflow data) by auto. apply nth_repeat.
  - now rewrite app_nth1.
Qed.
Lemma nth_error_firstn_some A (l : list A) : forall n k x, nth_error (firstn n l) k = Some x -> nth_error l k = Some x.
Proof. induction l; intros [|n] [|k] x H; cbn in *; try discriminate; auto. eapply IHl; eauto. Qed.
Lemma padded_Forall size data : Forall is_word data -> Forall is_word (padded size data).
Proof.
  intro F. apply Forall_forall. intros x Hx. apply In_nth_error in Hx as [k Hk].
  apply nth_error_firstn_some, nth_error_In, in_app_or in Hk as [Hk|Hk].
  - rewrite Forall_forall in F; auto.
  - apply repeat_spec in Hk. subst. apply is_word_0.
Qed.

Definition plane_bits (size i : nat) (data : list Z) : list Z :=
  zip_over (fun y _ => Z.b2z (Z.testbit y (Z.of_nat i))) data (repeat 0%Z size).
Lemma plane_bits_length size i data : length (plane_bits size i data) = size.
Proof. unfold plane_bits. now rewrite zip_over_length, repeat_length. Qed.
Lemma plane_bits_nth size i data a : a < size ->
  nth a (plane_bits size i data) 0%Z = Z.b2z (Z.testbit (nth a data 0%Z) (Z.of_nat i)).
Proof.
  intro H. unfold plane_bits. apply nth_error_nth. rewrite zip_over_nth, nth_error_repeat by auto.
  destruct (nth_error data a) as [y|] eqn:E.
  - now rewrite (nth_error_nth _ _ 0%Z E).
  - apply nth_error_None in E. rewrite nth_overflow by auto. now rewrite Z.testbit_0_l.
Qed.

Lemma ba_encrypt_ok size b bits : plane_shape log size b -> length bits = size ->
  plane_shape log size (ba_encrypt log b bits) /\
  length (ba_data (ba_encrypt log b bits)) = length (ba_data b) /\
  forall a, a < N * length (ba_data b) -> coef log (ba_encrypt log b bits) a = nth a bits 0%Z.
Proof.
  intros (H1 & H2 & H3) L. pose proof (ring_pos log) as NP.
  destruct (bit_len_bounds _ _ H1) as (P & _). destruct (div_ceil_bounds _ _ _ H2) as (_ & C1 & C2).
  destruct (C2 P) as [C3 C4].
  assert (HN : forall k, k < length (ba_data b) ->
    nth_error (ba_data (ba_encrypt log b bits)) k = Some (pad log (firstn N (skipn (k * N) bits)))).
  { intros k Hk. unfold ba_encrypt. cbn [ba_data]. rewrite zip_over_nth, chunks_nth by auto.
    destruct (nth_error_lt _ _ _ Hk) as [y Hy]. rewrite Hy.
    destruct (Nat.ltb_spec (k * N) (length bits)); auto. exfalso.
    assert (k <= length (ba_data b) - 1) by lia. nia. }
  assert (HL : length (ba_data (ba_encrypt log b bits)) = length (ba_data b)).
  { unfold ba_encrypt. cbn [ba_data]. apply zip_over_length. }
  repeat split; auto.
  - now rewrite HL.
  - apply Forall_forall. intros p Hp. apply In_nth_error in Hp as [k Hk].
    assert (Hlt : k < length (ba_data b)) by (apply nth_error_Some_lt in Hk; lia).
    rewrite HN in Hk by auto. injection Hk as <-. apply pad_length.
  - intros a Ha. unfold coef.
    assert (Hk : a / N < length (ba_data b)) by (apply Nat.div_lt_upper_bound; lia).
    rewrite (nth_error_nth _ _ [] (HN _ Hk)).
    pose proof (Nat.mod_upper_bound a N ltac:(lia)).
    rewrite pad_nth, nth_firstn_lt, nth_skipn by auto. f_equal.
    pose proof (Nat.div_mod a N ltac:(lia)). lia.
Qed.

Lemma nth_error_combine X Y (xs : list X) : forall (ys : list Y) k,
  nth_error (combine xs ys) k =
  match nth_error xs k, nth_error ys k with Some x, Some y => Some (x, y) | _, _ => None end.
Proof.
  induction xs as [|x xs IH]; intros [|y ys] [|k]; cbn; auto.
  now destruct (nth_error xs k).
Qed.
Lemma nth_error_seq s n k : k < n -> nth_error (seq s n) k = Some (s + k).
Proof. revert s k; induction n; intros s [|k] H; cbn; try lia; [f_equal; lia|]. rewrite IHn by lia. f_equal; lia. Qed.

(** Exactly the contents that fit are stored, the rest is dropped; only a
    slice 32 times too long is refused. *)
Lemma encrypt_eq size m data : shaped size m -> Forall is_word data ->
  if length data / 32 <=? size
  then exists m', mem_encrypt log m data = Some m' /\ holds log m' (padded size data)
  else mem_encrypt log m data = None.
Proof.
  intros (S1 & S2 & S3 & S4 & S5) F. unfold mem_encrypt. rewrite S4, S1. cbn [Nat.ltb Nat.leb].
  destruct (length data / 32 <=? size); auto.
  eexists; split; [reflexivity|].
  unfold holds. cbn [m_size m_bits m_state m_planes]. rewrite padded_length.
  repeat split; auto; [now apply padded_Forall|rewrite map_length, combine_length, seq_length, S4; reflexivity|..];
  rename H into Hb;
  rewrite nth_error_map, nth_error_combine in Hb;
  (destruct (le_lt_dec 32 i) as [Hi|Hi];
   [rewrite (proj2 (nth_error_None (seq 0 32) i)) in Hb by (rewrite seq_length; lia); discriminate|]);
  rewrite nth_error_seq in Hb by auto; cbn [plus] in Hb;
  (destruct (nth_error_lt _ (m_planes m) i) as [b0 Hb0]; [lia|]); rewrite Hb0 in Hb;
  cbn [option_map fst snd] in Hb; injection Hb as <-;
  destruct (ba_encrypt_ok size b0 (plane_bits size i data) (S5 _ _ Hb0) (plane_bits_length _ _ _)) as (E1 & E2 & E3).
  1-3: apply E1.
  intros a Ha. fold (plane_bits size i data) in *. rewrite E2 in Ha. rewrite E3 by auto.
  destruct (le_lt_dec size a) as [Hs|Hs].
  - rewrite nth_overflow by (rewrite plane_bits_length; auto).
    rewrite (nth_overflow (padded _ _)) by (rewrite padded_length; auto). now rewrite Z.testbit_0_l.
  - now rewrite plane_bits_nth, padded_nth.
Qed.

(** ** decryption *)
Lemma concat_nth (ps : list poly) : Forall (fun p => length p = N) ps ->
  length (concat ps) = N * length ps /\
  forall a, a < N * length ps -> nth a (concat ps) 0%Z = nth (a mod N) (nth (a / N) ps []) 0%Z.
Proof.
  pose proof (ring_pos log) as NP.
  induction ps as [|p ps IH]; intro F; cbn [concat length]; [split; [lia|intros; lia]|].
  inversion F; subst. destruct (IH H2) as [L HN]. rewrite app_length. split; [lia|].
  intros a Ha. destruct (le_lt_dec N a) as [H|H].
  - rewrite app_nth2, HN by lia. rewrite H1.
    assert (D : a / N = S ((a - N) / N) /\ a mod N = (a - N) mod N).
    { pose proof (Nat.div_mod (a - N) N ltac:(lia)). pose proof (Nat.mod_upper_bound (a - N) N ltac:(lia)).
      split; symmetry.
      - apply Nat.div_unique with ((a - N) mod N); nia.
      - apply Nat.mod_unique with (S ((a - N) / N)); nia. }
    destruct D as [-> ->]. reflexivity.
  - rewrite app_nth1 by lia. rewrite Nat.div_small, Nat.mod_small by auto. reflexivity.
Qed.

Lemma zip_take (xs out : list Z) : length out <= length xs -> zip_over (fun x _ => x) xs out = firstn (length out) xs.
Proof.
  revert out; induction xs as [|x xs IH]; intros [|o out] H; cbn in *; auto; try lia. f_equal. apply IH. lia.
Qed.

Lemma put_bit_testbit i x y j : (0 <= j)%Z ->
  Z.testbit (put_bit i x y) j = if (j =? Z.of_nat i)%Z then (x =? 1)%Z else Z.testbit y j.
Proof.
  intro H. unfold put_bit. destruct (x =? 1)%Z.
  - rewrite Z.setbit_eqb by lia. rewrite (Z.eqb_sym j). destruct (Z.eqb_spec (Z.of_nat i) j); auto.
  - rewrite Z.clearbit_eqb by lia. rewrite (Z.eqb_sym j). destruct (Z.eqb_spec (Z.of_nat i) j); cbn; [now rewrite andb_false_r|now rewrite andb_true_r].
Qed.

Definition dstep (st : list Z * list Z) (ib : nat * bitarray poly) : list Z * list Z :=
  let bits := ba_decrypt (snd ib) (fst st) in (bits, zip_over (put_bit (fst ib)) bits (snd st)).

Lemma dstep_fold (ws : list Z) (bs : list (bitarray poly)) : forall k bits data,
  length bits = length ws ->
  (forall i b, nth_error bs i = Some b -> plane_shape log (length ws) b /\
     forall a, a < N * length (ba_data b) -> coef log b a = Z.b2z (Z.testbit (nth a ws 0%Z) (Z.of_nat (k + i)))) ->
  let out := snd (fold_left dstep (combine (seq k (length bs)) bs) (bits, data)) in
  length out = length data /\
  forall a y, nth_error data a = Some y -> exists z, nth_error out a = Some z /\
    if a <? length ws then
      forall j, (0 <= j)%Z -> Z.testbit z j =
        if ((Z.of_nat k <=? j) && (j <? Z.of_nat (k + length bs)))%Z then Z.testbit (nth a ws 0%Z) j else Z.testbit y j
    else z = y.
Proof.
  induction bs as [|b bs IH]; intros k bits data L H.
  - cbn [length seq combine fold_left snd]. cbv zeta. split; auto. intros a y Hy. exists y. split; auto.
    destruct (a <? length ws); auto. intros j Hj.
    destruct (Z.leb_spec (Z.of_nat k) j); destruct (Z.ltb_spec j (Z.of_nat (k + 0))); cbn; auto; lia.
  - cbn [length seq combine fold_left].
    change (dstep (bits, data) (k, b)) with (ba_decrypt b bits, zip_over (put_bit k) (ba_decrypt b bits) data).
    destruct (H 0 b eq_refl) as [(Sh1 & Sh2 & Sh3) Co]. rewrite Nat.add_0_r in Co.
    destruct (div_ceil_bounds _ _ _ Sh2) as (_ & Cap & _).
    destruct (concat_nth (ba_data b) Sh3) as [CL CN].
    assert (EB : ba_decrypt b bits = firstn (length ws) (concat (ba_data b))).
    { unfold ba_decrypt. rewrite zip_take by lia. now rewrite L. }
    rewrite EB. set (bits' := firstn (length ws) (concat (ba_data b))) in *.
    assert (L' : length bits' = length ws) by (unfold bits'; rewrite firstn_length; lia).
    assert (BN : forall a, a < length ws -> nth_error bits' a = Some (Z.b2z (Z.testbit (nth a ws 0%Z) (Z.of_nat k)))).
    { intros a Ha. destruct (nth_error_lt _ bits' a) as [x Hx]; [lia|]. rewrite Hx. f_equal.
      rewrite <- (nth_error_nth _ _ 0%Z Hx). unfold bits'. rewrite nth_firstn_lt by auto.
      rewrite CN by lia. rewrite <- Co by lia. reflexivity. }
    destruct (IH (S k) bits' (zip_over (put_bit k) bits' data) L') as [IL IN].
    { intros i b' Hb'. replace (S k + i) with (k + S i) by lia. apply (H (S i) b' Hb'). }
    cbv zeta in *. split; [rewrite IL; apply zip_over_length|].
    intros a y Hy.
    assert (Hd : nth_error (zip_over (put_bit k) bits' data) a
              = Some (if a <? length ws then put_bit k (Z.b2z (Z.testbit (nth a ws 0%Z) (Z.of_nat k))) y else y)).
    { rewrite zip_over_nth, Hy. destruct (Nat.ltb_spec a (length ws)).
      - now rewrite BN.
      - now rewrite (proj2 (nth_error_None bits' a)) by lia. }
    destruct (IN _ _ Hd) as (z & Hz & Hb). exists z. split; auto.
    destruct (Nat.ltb_spec a (length ws)) as [Ha|Ha]; [|exact Hb].
    intros j Hj. rewrite Hb by auto. rewrite put_bit_testbit by auto.
    assert (EQ : (Z.b2z (Z.testbit (nth a ws 0%Z) (Z.of_nat k)) =? 1)%Z = Z.testbit (nth a ws 0%Z) (Z.of_nat k))
      by now destruct (Z.testbit (nth a ws 0%Z) (Z.of_nat k)).
    rewrite EQ.
    destruct (Z.eqb_spec j (Z.of_nat k)).
    + subst j. destruct (Z.leb_spec (Z.of_nat (S k)) (Z.of_nat k)); [lia|]. cbn [andb].
      destruct (Z.leb_spec (Z.of_nat k) (Z.of_nat k)); [|lia].
      destruct (Z.ltb_spec (Z.of_nat k) (Z.of_nat (k + S (length bs)))); [reflexivity|lia].
    + destruct (Z.leb_spec (Z.of_nat (S k)) j); destruct (Z.leb_spec (Z.of_nat k) j); cbn [andb]; try lia; auto.
      replace (k + S (length bs)) with (S k + length bs) by lia. reflexivity.
Qed.

Lemma word_high w j : is_word w -> (32 <= j)%Z -> Z.testbit w j = false.
Proof.
  intros [H1 H2] Hj. destruct (Z.eq_dec w 0) as [->|]; [apply Z.testbit_0_l|].
  apply Z.bits_above_log2; [lia|]. apply Z.log2_lt_pow2; [lia|].
  apply Z.lt_le_trans with (2 ^ 32)%Z; [exact H2|]. apply Z.pow_le_mono_r; lia.
Qed.

Lemma decrypt_eq m ws data : holds log m ws -> Forall is_word data -> length data / 32 <= length ws ->
  mem_decrypt m data = Some (firstn (length data) ws ++ skipn (length ws) data).
Proof.
  intros (H1 & H2 & H3 & H4 & H5 & H6) F HL. unfold mem_decrypt. rewrite H5, H1. cbn [Nat.ltb Nat.leb].
  rewrite (proj2 (Nat.leb_le _ _) HL). f_equal.
  change (fun (st : list Z * list Z) (ib : nat * bitarray poly) =>
    let bits := ba_decrypt (snd ib) (fst st) in (bits, zip_over (put_bit (fst ib)) bits (snd st))) with dstep.
  pose proof (dstep_fold ws (m_planes m) 0 (repeat 0%Z (length ws)) data (repeat_length _ _) H6) as D.
  rewrite H5 in D. cbv zeta in D. destruct D as [DL DN].
  set (out := snd _) in *. clearbody out.
  assert (LL : length (firstn (length data) ws ++ skipn (length ws) data) = length data).
  { rewrite app_length, firstn_length, skipn_length. lia. }
  apply nth_error_ext. intro a. destruct (le_lt_dec (length data) a) as [Ha|Ha].
  - rewrite (proj2 (nth_error_None out a)) by lia. symmetry. apply nth_error_None. lia.
  - destruct (nth_error_lt _ _ _ Ha) as [y Hy]. destruct (DN _ _ Hy) as (z & Hz & HB). rewrite Hz.
    destruct (Nat.ltb_spec a (length ws)) as [Hw|Hw].
    + rewrite nth_error_app1 by (rewrite firstn_length; lia).
      assert (z = nth a ws 0%Z) as ->.
      { apply Z.bits_inj'. intros j Hj. rewrite HB by auto.
        destruct (Z.leb_spec (Z.of_nat 0) j); [|lia]. cbn [andb].
        destruct (Z.ltb_spec j (Z.of_nat (0 + 32))); auto.
        rewrite !word_high; auto; try lia; [|].
        - now apply nth_word.
        - exact (nth_error_Forall _ _ _ _ _ F Hy). }
      symmetry. rewrite <- (nth_firstn_lt _ ws 0%Z a (length data)) by auto.
      apply nth_error_nth'. rewrite firstn_length. lia.
    + subst z. rewrite nth_error_app2 by (rewrite firstn_length; lia).
      rewrite firstn_length, Nat.min_r by lia.
      rewrite <- (firstn_skipn (length ws) data), nth_error_app2 in Hy by (rewrite firstn_length; lia).
      rewrite firstn_length, Nat.min_l in Hy by lia. congruence.
Qed.
End Client.
