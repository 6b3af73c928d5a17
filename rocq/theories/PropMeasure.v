(** * Measured noise of memories: C74, C75 *)
Require Import ZArith List Bool Lia.
Require Import Verif.Word Verif.Glwe Verif.GlweFacts Verif.Par Verif.EncMem Verif.MemSpec Verif.MemFacts Verif.MemClient Verif.Noise Verif.NoiseFacts Verif.Measure.
Import ListNotations.
Open Scope Z_scope.

Lemma tdist_near q x y e : 0 < q -> 0 <= e -> (tdist q (x - y) <= e <-> tnear q e x y).
Proof.
  intros Q E. unfold tdist, tnear. set (z := x - y). clearbody z.
  pose proof (Z.div_mod z q ltac:(lia)) as D. pose proof (Z.mod_pos_bound z q Q) as B.
  pose proof (Z.div_mod (- z) q ltac:(lia)) as D'. pose proof (Z.mod_pos_bound (- z) q Q) as B'.
  split.
  - intros H. apply Z.min_le in H as [H|H]; [exists (z / q)|exists (- (- z / q))]; nia.
  - intros (k & H). destruct (Z_le_gt_dec 0 (z - k * q)).
    + assert (z mod q <= z - k * q). { assert (k <= z / q) by nia. nia. } lia.
    + assert ((- z) mod q <= - (z - k * q)). { assert (- k <= (- z) / q) by nia. nia. } lia.
Qed.

Lemma max_le l e : 0 <= e -> (fold_right Z.max 0 l <= e <-> forall x, In x l -> x <= e).
Proof.
  intros E. induction l as [|a l IH]; cbn [fold_right].
  - split; [intros _ x []|lia].
  - rewrite Z.max_lub_iff, IH. split.
    + intros [A B] x [<-|I]; auto.
    + intros H. split; [apply H; now left|]. intros x I. apply H. now right.
Qed.

Lemma ct_noise_le t p pt e n : 0 < t_q t -> 0 <= e -> length p = n -> length pt = n ->
  (ct_noise t p pt <= e <-> forall c, (c < n)%nat -> tnear (t_q t) e (nth c p 0) (t_delta t * nth c pt 0)).
Proof.
  intros Q E LP LQ. unfold ct_noise. rewrite max_le by auto. split.
  - intros H c Hc. apply tdist_near; auto. apply H. apply in_map_iff. exists (nth c p 0, nth c pt 0). split; [reflexivity|].
    rewrite <- combine_nth by congruence. apply nth_In. rewrite combine_length. lia.
  - intros H x I. apply in_map_iff in I as ((a, b) & <- & I). apply In_nth with (d := (0, 0)) in I as (c & Hc & I).
    rewrite combine_length in Hc. rewrite combine_nth in I by congruence. injection I as <- <-. cbn [fst snd].
    apply tdist_near; auto. apply H. lia.
Qed.

(** what coefficient [c] of row [r] is compared with: the word there, and beyond
    the end of the data what the buffer still holds *)
Definition compared (n : nat) (buf xs : list Z) (r c : nat) : Z :=
  if (r * n + c <? length xs)%nat then nth (r * n + c) xs 0
  else match r with O => nth c buf 0 | S r' => nth (r' * n + c) xs 0 end.

Lemma zip_nth c xs buf : (c < length buf)%nat -> nth c (zip_over (fun x _ => x) xs buf) 0 = if (c <? length xs)%nat then nth c xs 0 else nth c buf 0.
Proof.
  intros H. destruct (nth_error buf c) as [y|] eqn:EY; [|apply nth_error_None in EY; lia].
  pose proof (zip_over_nth _ _ (fun x (_ : Z) => x) xs buf c) as Z0. rewrite EY in Z0.
  destruct (Nat.ltb_spec c (length xs)) as [L|L].
  - destruct (nth_error xs c) as [x|] eqn:EX; [|apply nth_error_None in EX; lia].
    now rewrite (nth_error_nth _ _ 0 Z0), (nth_error_nth _ _ 0 EX).
  - assert (EX : nth_error xs c = None) by (apply nth_error_None; lia). rewrite EX in Z0.
    now rewrite (nth_error_nth _ _ 0 Z0), (nth_error_nth _ _ 0 EY).
Qed.

Section Rows.
Context {C : Type}.
Variables (n : nat) (t : torus) (phase : C -> list Z) (e : Z).
Hypotheses (Hn : (0 < n)%nat) (Hq : 0 < t_q t) (He : 0 <= e).

Lemma rows_le : forall fuel xs buf cts, (length xs <= fuel)%nat -> length buf = n -> Forall (fun c => length (phase c) = n) cts ->
  (rows_noise t phase buf (chunks_of fuel n xs) cts <= e <->
   forall r x c, nth_error cts r = Some x -> (r * n < length xs)%nat -> (c < n)%nat ->
     tnear (t_q t) e (nth c (phase x) 0) (t_delta t * compared n buf xs r c)).
Proof.
  induction fuel as [|fuel IH]; intros xs buf cts LX LB F.
  - destruct xs; [|cbn in LX; lia]. cbn. split; [intros _ r x c _ A; lia|lia].
  - destruct xs as [|x0 xs']; [cbn; split; [intros _ r x c _ A; lia|lia]|]. set (xs := x0 :: xs') in *.
    change (chunks_of (S fuel) n xs) with (firstn n xs :: chunks_of fuel n (skipn n xs)).
    destruct cts as [|y cts]; [cbn; split; [intros _ [|r] x c A; discriminate|lia]|].
    cbn [rows_noise]. set (buf' := zip_over (fun x _ => x) (firstn n xs) buf).
    assert (LB' : length buf' = n) by (unfold buf'; now rewrite zip_over_length).
    inversion_clear F as [|? ? F1 F2].
    assert (LS : (length (skipn n xs) <= fuel)%nat). { rewrite skipn_length. unfold xs in *. cbn [length] in *. lia. }
    rewrite Z.max_lub_iff, (ct_noise_le t (phase y) buf' e n Hq He F1 LB'), (IH _ _ _ LS LB' F2).
    assert (V0 : forall c, (c < n)%nat -> nth c buf' 0 = compared n buf xs 0 c).
    { intros c Hc. unfold buf'. rewrite zip_nth by lia. unfold compared. cbn [Nat.mul Nat.add].
      rewrite firstn_length. destruct (Nat.ltb_spec c (min n (length xs))), (Nat.ltb_spec c (length xs)); try lia; auto.
      now rewrite nth_firstn_lt. }
    assert (VS : forall r c, (S r * n < length xs)%nat -> (c < n)%nat -> compared n buf' (skipn n xs) r c = compared n buf xs (S r) c).
    { intros r c Hr Hc. unfold compared at 1 2. rewrite skipn_length, !nth_skipn.
      replace (n + (r * n + c))%nat with (S r * n + c)%nat by lia.
      destruct (Nat.ltb_spec (r * n + c) (length xs - n)), (Nat.ltb_spec (S r * n + c) (length xs)); try lia; auto.
      destruct r as [|r].
      - rewrite V0 by auto. unfold compared. cbn [Nat.mul Nat.add]. destruct (Nat.ltb_spec c (length xs)); [reflexivity|lia].
      - rewrite nth_skipn. f_equal. lia. }
    split.
    + intros [A B] [|r] x c Hx Hr Hc; cbn [nth_error] in Hx.
      * injection Hx as <-. rewrite <- V0 by auto. auto.
      * rewrite <- VS by auto. apply B; auto. rewrite skipn_length. lia.
    + intros H. split.
      * intros c Hc. rewrite V0 by auto. apply (H 0%nat y); auto. unfold xs. cbn. lia.
      * intros r x c Hx Hr Hc. rewrite skipn_length in Hr. rewrite VS by (auto; lia). apply H; auto. lia.
Qed.
End Rows.

Lemma div_ceil_0 n k : div_ceil 0 n = Some k -> k = 0%nat.
Proof.
  destruct n as [|n]; [discriminate|]. unfold div_ceil. intros E. assert (A : k = ((0 + n) / S n)%nat) by congruence.
  rewrite A. apply Nat.div_small. lia.
Qed.

(** a memory for [n] words as it is allocated (memory.rs:30-42, 443-455) *)
Definition measurable {C} (log : nat) (phase : C -> list Z) (m : memory C) (n : nat) : Prop :=
  m_size m = n /\ length (m_planes m) = 32%nat /\
  Forall (fun b => div_ceil n (ring log) = Some (length (ba_data b)) /\
                   Forall (fun c => length (phase c) = ring log) (ba_data b)) (m_planes m).
(** what [noise] compares coefficient [c] of row [r] of plane [i] with *)
Definition reference (log : nat) (ws : list Z) (scratch : nat -> list Z) (i r c : nat) : Z :=
  if (r * ring log + c <? length ws)%nat then Z.b2z (Z.testbit (nth (r * ring log + c) ws 0) (Z.of_nat i))
  else match r with
       | O => nth c (scratch i) 0
       | S r' => Z.b2z (Z.testbit (nth (r' * ring log + c) ws 0) (Z.of_nat i))
       end.

(** C75.  What is reported, exactly: the largest deviation of the coefficients
    from the words' bits, and in the last ciphertext of a plane, beyond the last
    word, from the bits one ciphertext earlier, or from the contents of the
    scratch space if there is no earlier one. *)
Theorem C75_measured :
  forall (C : Type) log t (phase : C -> list Z) scratch m ws,
    0 < t_q t -> measurable log phase m (length ws) -> (forall i, length (scratch i) = ring log) ->
    exists ns, mem_noise log t phase scratch m ws = Some ns /\ length ns = 32%nat /\
      forall i b, nth_error (m_planes m) i = Some b -> forall e, 0 <= e ->
        (nth i ns 0 <= e <->
         forall r x c, nth_error (ba_data b) r = Some x -> (c < ring log)%nat ->
           tnear (t_q t) e (nth c (phase x) 0) (t_delta t * reference log ws scratch i r c)).
Proof.
  intros C log t phase scratch m ws Q (MS & ML & MF) SL. unfold mem_noise. rewrite ML, MS.
  cbn [Nat.ltb Nat.leb]. destruct (Nat.leb_spec (length ws / 32) (length ws)) as [_|H].
  2:{ pose proof (Nat.div_le_upper_bound (length ws) 32 (length ws) ltac:(lia)). lia. }
  eexists. split; [reflexivity|]. split; [now rewrite map_length, combine_length, seq_length, ML|].
  intros i b Hb e E.
  assert (Hi : (i < 32)%nat). { rewrite <- ML. apply nth_error_Some. congruence. }
  match goal with |- context [nth i (map ?f ?l) 0] => assert (NE : nth_error (map f l) i = Some (f (i, b))) end.
  { rewrite nth_error_map, nth_error_combine.
    rewrite (nth_error_nth' (seq 0 32) 0%nat) by (rewrite seq_length; auto). rewrite seq_nth by auto. rewrite Hb. reflexivity. }
  rewrite (nth_error_nth _ _ 0 NE). cbn [fst snd]. clear NE.
  rewrite Forall_forall in MF. destruct (MF b (nth_error_In _ _ Hb)) as (DC & FB).
  fold (plane_bits (length ws) i ws). unfold ba_noise.
  rewrite (rows_le (ring log) t phase e (ring_pos log) Q E); auto.
  rewrite plane_bits_length.
  assert (V : forall r c, (r * ring log < length ws)%nat -> (c < ring log)%nat ->
    compared (ring log) (scratch i) (plane_bits (length ws) i ws) r c = reference log ws scratch i r c).
  { intros r c Hr Hc. unfold compared, reference. rewrite plane_bits_length.
    destruct (Nat.ltb_spec (r * ring log + c) (length ws)); [now rewrite plane_bits_nth|].
    destruct r as [|r]; [reflexivity|]. rewrite plane_bits_nth; [reflexivity|]. cbn in Hr. lia. }
  destruct (div_ceil_bounds _ _ _ DC) as (_ & _ & DB).
  split; intros H r x c Hx.
  - intros Hc. assert (Hr : (r < length (ba_data b))%nat) by (apply nth_error_Some; congruence).
    assert (W : (r * ring log < length ws)%nat).
    { destruct (Nat.eq_dec (length ws) 0) as [Z0|Z0].
      - rewrite Z0 in DC. apply div_ceil_0 in DC. lia.
      - destruct (DB ltac:(lia)) as (DB1 & DB2). nia. }
    rewrite <- V by auto. now apply H.
  - intros Hr Hc. rewrite V by auto. now apply H.
Qed.
Print Assumptions C75_measured.

(** C74.  Full statement: what is reported is the largest deviation from the
    words' bits (from 0 where there is no word).  True if the words fill the
    ciphertexts: *)
Theorem C74_full_rows_partial :
  forall (C : Type) log t (phase : C -> list Z) scratch m ws,
    0 < t_q t -> measurable log phase m (length ws) -> (forall i, length (scratch i) = ring log) ->
    (length ws mod ring log = 0)%nat ->
    exists ns, mem_noise log t phase scratch m ws = Some ns /\ length ns = 32%nat /\
      forall i b, nth_error (m_planes m) i = Some b -> forall e, 0 <= e ->
        (nth i ns 0 <= e <->
         forall r x c, nth_error (ba_data b) r = Some x -> (c < ring log)%nat ->
           tnear (t_q t) e (nth c (phase x) 0) (t_delta t * Z.b2z (Z.testbit (nth (r * ring log + c) ws 0) (Z.of_nat i)))).
Proof.
  intros C log t phase scratch m ws Q MM SL Hm. destruct (C75_measured C log t phase scratch m ws Q MM SL) as (ns & EN & LN & H).
  exists ns. split; [exact EN|]. split; [exact LN|]. intros i b Hb e E. rewrite (H i b Hb e E).
  destruct MM as (MS & ML & MF). rewrite Forall_forall in MF. destruct (MF b (nth_error_In _ _ Hb)) as (DC & _).
  destruct (div_ceil_bounds _ _ _ DC) as (_ & _ & DB). pose proof (ring_pos log) as RP.
  pose proof (Nat.div_mod (length ws) (ring log) ltac:(lia)) as DM.
  assert (V : forall r c, (r < length (ba_data b))%nat -> (c < ring log)%nat -> (r * ring log + c < length ws)%nat).
  { intros r c Hr Hc. destruct (Nat.eq_dec (length ws) 0) as [Z0|Z0].
    - rewrite Z0 in DC. apply div_ceil_0 in DC. lia.
    - destruct (DB ltac:(lia)) as (DB1 & DB2). rewrite Hm in DM. set (k := (length ws / ring log)%nat) in *. clearbody k.
      assert (length (ba_data b) - 1 < k)%nat by nia. assert (ring log * (r + 1) <= ring log * k)%nat by (apply Nat.mul_le_mono_l; lia). lia. }
  split; intros G r x c Hx Hc.
  - specialize (G r x c Hx Hc). unfold reference in G.
    assert (Hr : (r < length (ba_data b))%nat) by (apply nth_error_Some; congruence).
    destruct (Nat.ltb_spec (r * ring log + c) (length ws)) as [_|L]; [exact G|]. specialize (V r c Hr Hc). lia.
  - assert (Hr : (r < length (ba_data b))%nat) by (apply nth_error_Some; congruence).
    unfold reference. destruct (Nat.ltb_spec (r * ring log + c) (length ws)) as [_|L]; [now apply G|]. specialize (V r c Hr Hc). lia.
Qed.
Print Assumptions C74_full_rows_partial.

(** False for every memory that is smaller than a ciphertext, as the registers
    are: there are contents of the scratch space with which at least a whole
    message step is reported for every plane, even if there is no noise at all. *)
Theorem C74_small_refuted :
  forall (C : Type) log t (phase : C -> list Z) m ws,
    0 < t_delta t -> 2 * t_delta t <= t_q t -> measurable log phase m (length ws) -> (0 < length ws < ring log)%nat ->
    (forall i b r x c, nth_error (m_planes m) i = Some b -> nth_error (ba_data b) r = Some x -> (c < ring log)%nat ->
       nth c (phase x) 0 = t_delta t * Z.b2z (Z.testbit (nth (r * ring log + c) ws 0) (Z.of_nat i))) ->
    exists scratch ns, (forall i, length (scratch i) = ring log) /\ mem_noise log t phase scratch m ws = Some ns /\
      forall i, (i < 32)%nat -> t_delta t <= nth i ns 0.
Proof.
  intros C log t phase m ws D Q MM HS EX.
  exists (fun _ => repeat 1 (ring log)).
  destruct (C75_measured C log t phase (fun _ => repeat 1 (ring log)) m ws ltac:(lia) MM) as (ns & EN & LN & H).
  { intros _. apply repeat_length. }
  exists ns. split; [intros _; apply repeat_length|]. split; [exact EN|]. intros i Hi.
  destruct MM as (MS & ML & MF). destruct (nth_error (m_planes m) i) as [b|] eqn:Hb; [|apply nth_error_None in Hb; lia].
  destruct (Z_le_gt_dec (t_delta t) (nth i ns 0)) as [L|L]; [exact L|exfalso].
  assert (L' : nth i ns 0 <= t_delta t - 1) by lia.
  rewrite (H i b Hb (t_delta t - 1) ltac:(lia)) in L'.
  rewrite Forall_forall in MF. destruct (MF b (nth_error_In _ _ Hb)) as (DC & _).
  destruct (div_ceil_bounds _ _ _ DC) as (_ & _ & DB). destruct (DB ltac:(lia)) as (_ & DB2).
  destruct (nth_error (ba_data b) 0) as [x|] eqn:Hx; [|apply nth_error_None in Hx; lia].
  specialize (L' 0%nat x (length ws) Hx ltac:(lia)). unfold reference in L'. cbn [Nat.mul Nat.add] in L'.
  destruct (Nat.ltb_spec (length ws) (length ws)) as [?|_]; [lia|].
  rewrite (nth_indep (repeat 1 (ring log)) 0 1), nth_repeat in L' by (rewrite repeat_length; lia).
  rewrite (EX i b 0%nat x (length ws) Hb Hx ltac:(lia)) in L'. cbn [Nat.mul Nat.add] in L'.
  rewrite nth_overflow, Z.testbit_0_l in L' by lia. cbn [Z.b2z] in L'. destruct L' as (k & L').
  destruct (Z_le_gt_dec 0 k); nia.
Qed.
Print Assumptions C74_small_refuted.

(** and, for larger memories, even if the scratch space is all zero: three words
    in rings of two coefficients *)
Definition ex_mem : memory (list Z) :=
  Memory (repeat (BitArray [[0; 64]; [0; 0]] 2) 32) 3 2 false.
Theorem C74_large_refuted :
  exists ws, measurable 1 (fun c => c) ex_mem (length ws) /\
    (forall i b r x c, nth_error (m_planes ex_mem) i = Some b -> nth_error (ba_data b) r = Some x -> (c < 2)%nat ->
       nth c x 0 = 64 * Z.b2z (Z.testbit (nth (r * 2 + c) ws 0) (Z.of_nat i))) /\
    mem_noise 1 (Torus 256 64 31) (fun c => c) (fun _ => [0; 0]) ex_mem ws = Some (repeat 64 32).
Proof.
  exists [0; 0xFFFFFFFF; 0]. split; [|split].
  - split; [reflexivity|]. split; [reflexivity|]. apply Forall_forall. intros b Hb. apply repeat_spec in Hb. subst b.
    split; [reflexivity|]. repeat constructor.
  - intros i b r x c Hb Hx Hc. assert (Hi : (i < 32)%nat). { change 32%nat with (length (m_planes ex_mem)). apply nth_error_Some. congruence. }
    cbn [m_planes ex_mem] in Hb. apply nth_error_In, repeat_spec in Hb. subst b. cbn [ba_data] in Hx.
    assert (T : Z.testbit 4294967295 (Z.of_nat i) = true). { change 4294967295 with (Z.ones 32). apply Z.ones_spec_low. lia. }
    destruct r as [|[|r]]; cbn [nth_error] in Hx.
    + injection Hx as <-. destruct c as [|[|c]]; [|cbn [nth Nat.mul Nat.add]; now rewrite T|lia]. cbn [nth Nat.mul Nat.add]. now rewrite Z.testbit_0_l.
    + injection Hx as <-. destruct c as [|[|c]]; [| |lia]; cbn [nth Nat.mul Nat.add]; now rewrite Z.testbit_0_l.
    + destruct r; discriminate.
  - vm_compute. reflexivity.
Qed.
Print Assumptions C74_large_refuted.

(** the hypotheses of C75 and of C74_full_rows_partial: four words, phases a
    little off *)
Definition ex_full : memory (list Z) :=
  Memory (repeat (BitArray [[1; 62]; [-3; 255]] 2) 32) 4 2 false.
Example C75_case :
  measurable 1 (fun c => c) ex_full 4 /\ measurable 1 (fun c => c) ex_mem 3 /\
  mem_noise 1 (Torus 256 64 31) (fun c => c) (fun _ => [7; 7]) ex_full [0; 0xFFFFFFFF; 0; 0] = Some (repeat 3 32) /\
  mem_noise 1 (Torus 256 64 31) (fun c => c) (fun _ => [7; 7]) ex_full [0; 0xFFFFFFFF; 0; 0xFFFFFFFF] = Some (repeat 65 32).
Proof.
  split; [|split; [|split; vm_compute; reflexivity]].
  - split; [reflexivity|]. split; [reflexivity|]. apply Forall_forall. intros b Hb. apply repeat_spec in Hb. subst b.
    split; [reflexivity|]. repeat constructor.
  - split; [reflexivity|]. split; [reflexivity|]. apply Forall_forall. intros b Hb. apply repeat_spec in Hb. subst b.
    split; [reflexivity|]. repeat constructor.
Qed.
