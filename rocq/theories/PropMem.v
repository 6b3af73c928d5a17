(** * Properties C29-C35 and C44: encrypted memory *)
Require Import ZArith List Bool Lia Permutation.
Require Import Verif.Word Verif.Glwe Verif.Par Verif.EncMem Verif.Prepare Verif.MemSpec
  Verif.Bdd Verif.ParFacts Verif.MemOps Verif.MemClient Verif.MemSeq Verif.PrepFacts.
Import ListNotations.

(** ** a concrete memory for the examples: ring degree 4, six words, so two
    polynomials per plane and three address bits; two worker threads *)
Definition sample_words : list Z := [0xDEADBEEF; 7; 0xFFFFFFFF; 0; 0x80000001; 42]%Z.
Definition sample_mem : memory poly :=
  match mem_alloc (Ideal 2) 32 6 with
  | Some m => match mem_encrypt 2 m sample_words with Some m' => m' | None => m end
  | None => Memory [] 0 0 false
  end.
Definition seq_order (t len : nat) : list task :=
  match thread_tasks t len with Some ts => concat ts | None => [] end.
(** one thread runs backwards in time relative to the other: second thread first *)
Definition rev_order (t len : nat) : list task :=
  match thread_tasks t len with Some ts => concat (rev ts) | None => [] end.
Definition addr5 : list bool := [true; true; true; false; true; false].  (* bits 2..4 are the number 5 *)

Lemma sample_holds : holds 2 sample_mem sample_words.
Proof.
  destruct (alloc_shaped 2 6 ltac:(lia)) as (m & E & H).
  assert (S : shaped 2 6 m) by (apply (holds_shaped 2 m _ H)).
  pose proof (encrypt_eq 2 6 m sample_words S) as Q.
  assert (F : Forall is_word sample_words) by (repeat constructor; unfold is_word; lia).
  specialize (Q F). change (length sample_words / 32 <=? 6)%nat with true in Q. cbn [andb] in Q.
  destruct Q as (m' & E' & H'). unfold sample_mem. rewrite E, E'. exact H'.
Qed.
Lemma sample_order : par_order 2 32 (seq_order 2 32).
Proof. eexists. split; [reflexivity|]. apply interleave_seq. Qed.
Lemma addr5_ok : addresses addr5 2 3 5.
Proof.
  repeat split; cbn; try lia. intros i Hi. destruct i as [|[|[|i]]]; auto. lia.
Qed.

(** C29.  The address is any number the address bits can hold; beyond the
    stored words the result is zero. *)
Theorem C29_read_is_array_read :
  forall log threads order (m : memory poly) ws addr offset a,
    holds log m ws -> par_order threads 32 order -> addresses addr offset (m_bits m) a ->
    exists c, mem_read_stateless (Ideal log) threads order m addr offset = Some (m, c) /\
      enc_of c (nth a ws 0%Z).
Proof. exact stateless_ok. Qed.
Print Assumptions C29_read_is_array_read.
Example C29_case :
  holds 2 sample_mem sample_words /\ par_order 2 32 (seq_order 2 32) /\
  m_bits sample_mem = 3%nat /\ addresses addr5 2 3 5 /\
  option_map (fun r => decrypt_word (snd r)) (mem_read_stateless (Ideal 2) 2 (seq_order 2 32) sample_mem addr5 2) = Some 42%Z.
Proof. split; [apply sample_holds|]. split; [apply sample_order|]. split; [reflexivity|]. split; [apply addr5_ok|]. vm_compute. reflexivity. Qed.

(** C30: one read and its write-back, each with its own threads and schedule *)
Theorem C30_read_write_back :
  forall log threads order (m : memory poly) ws addr offset a,
    holds log m ws -> (a < length ws)%nat -> par_order threads 32 order ->
    addresses addr offset (m_bits m) a ->
    exists m1 c, mem_read_statefull (Ideal log) threads order m addr offset = Some (m1, c) /\
      enc_of c (nth a ws 0%Z) /\ m_state m1 = true /\
      forall threads' order' w v, par_order threads' 32 order' -> enc_of w v ->
        exists m2, mem_read_statefull_rev (Ideal log) threads' order' m1 w addr offset = Some m2 /\
          holds log m2 (put_word ws a v).
Proof. exact statefull_ok. Qed.
Print Assumptions C30_read_write_back.
(** ... and any sequence of reads, read/write-back pairs and writes behaves as
    the same operations on an array. *)
Theorem C30_sequences_are_array_operations :
  forall log os (m : memory poly) ws css, holds log m ws ->
    Forall2 (realises (length ws) (m_bits m)) os css ->
    exists m' outs, mem_calls log m (concat css) = Some (m', outs) /\
      holds log m' (fst (arr_run ws os)) /\ Forall2 enc_of outs (snd (arr_run ws os)).
Proof. exact seq_ok. Qed.
Print Assumptions C30_sequences_are_array_operations.
Definition bits_of_word (w : Z) : list Z := map (fun i => Z.b2z (Z.testbit w (Z.of_nat i))) (seq 0 32).
Lemma bits_of_word_enc w : is_word w -> enc_of (bits_of_word w) w.
Proof.
  intro W. split; auto. split; [now cbn|]. intros i Hi. unfold bits_of_word.
  apply nth_error_nth. rewrite nth_error_map, nth_error_seq by auto. reflexivity.
Qed.
(* the write uses address bits 3..5, the number 2 *)
Definition sample_calls : list (list call) :=
  [ [Call 2 (seq_order 2 32) (ReadKeep addr5 2); Call 3 (seq_order 3 32) (WriteBack (bits_of_word 99) addr5 2)];
    [Call 1 (seq_order 1 32) (Write (bits_of_word 5) addr5 3)];
    [Call 2 (seq_order 2 32) (Read addr5 2)] ].
Example C30_case :
  Forall2 (realises (length sample_words) (m_bits sample_mem)) [ASwap 5 99; APut 2 5; AGet 5] sample_calls /\
  arr_run sample_words [ASwap 5 99; APut 2 5; AGet 5] = ([0xDEADBEEF; 7; 5; 0; 0x80000001; 99], [42; 99])%Z /\
  option_map (fun r => (mem_decrypt (fst r) (repeat 0%Z 6), map decrypt_word (snd r)))
    (mem_calls 2 sample_mem (concat sample_calls))
  = Some (Some [0xDEADBEEF; 7; 5; 0; 0x80000001; 99], [42; 99])%Z.
Proof.
  split; [|split; vm_compute; reflexivity].
  assert (P : forall t, (0 < t)%nat -> par_order t 32 (seq_order t 32)).
  { intros t Ht. destruct (thread_tasks_cover t 32 Ht ltac:(lia)) as (ts & E & _).
    unfold seq_order. rewrite E. exists ts. split; auto. apply interleave_seq. }
  assert (A2 : addresses addr5 3 3 2).
  { repeat split; cbn; try lia. intros i Hi. destruct i as [|[|[|i]]]; auto. lia. }
  change (m_bits sample_mem) with 3%nat.
  repeat constructor; try (apply P; lia); try (cbn; lia); try (apply bits_of_word_enc; unfold is_word; lia);
    try apply addr5_ok; try apply A2.
  all: try (intros i Hi; destruct i as [|[|[|i]]]; auto; lia).
Qed.

(** C31 *)
Theorem C31_write_is_array_update :
  forall log threads order (m : memory poly) ws addr offset a w v,
    holds log m ws -> (a < length ws)%nat -> par_order threads 32 order ->
    addresses addr offset (m_bits m) a -> enc_of w v ->
    exists m', mem_write (Ideal log) threads order m w addr offset = Some m' /\ holds log m' (put_word ws a v).
Proof. exact write_ok. Qed.
Print Assumptions C31_write_is_array_update.
Example C31_case :
  enc_of (bits_of_word 0x12345678) 0x12345678 /\
  (do m' <- mem_write (Ideal 2) 2 (seq_order 2 32) sample_mem (bits_of_word 0x12345678) addr5 2;
   mem_decrypt m' (repeat 0%Z 6)) = Some [0xDEADBEEF; 7; 0xFFFFFFFF; 0; 0x80000001; 0x12345678]%Z.
Proof. split; [apply bits_of_word_enc; unfold is_word; lia|]. vm_compute. reflexivity. Qed.

(** C32 is false: clearing word 1 clears word 0. *)
Theorem C32_clear_refuted :
  exists log threads order (m : memory poly) ws addr m',
    holds log m ws /\ (addr < length ws)%nat /\ par_order threads 32 order /\
    mem_zero (Ideal log) threads order m addr = Some m' /\
    exists ws', holds log m' ws' /\ nth addr ws' 0%Z <> 0%Z /\ nth 0 ws' 0%Z <> nth 0 ws 0%Z.
Proof.
  destruct (zero_ok 2 2 (seq_order 2 32) sample_mem sample_words 1) as (m' & E & H).
  - apply sample_holds.
  - cbn; lia.
  - apply sample_order.
  - exists 2%nat, 2%nat, (seq_order 2 32), sample_mem, sample_words, 1%nat, m'.
    split; [apply sample_holds|]. split; [cbn; lia|]. split; [apply sample_order|]. split; [exact E|].
    eexists. split; [exact H|]. split; vm_compute; discriminate.
Qed.
Print Assumptions C32_clear_refuted.
(** The exact behaviour: the word cleared is [addr/N*N + (addr/N) mod N]
    (if there is such a word), so the right one exactly when
    [addr mod N = (addr/N) mod N].  The only call (register 0,
    interpreter.rs:1222) is such a case. *)
Theorem C32_clear_exactly :
  forall log threads order (m : memory poly) ws addr,
    holds log m ws -> (addr < length ws)%nat -> par_order threads 32 order ->
    exists m', mem_zero (Ideal log) threads order m addr = Some m' /\
      let target := (addr / ring log * ring log + (addr / ring log) mod ring log)%nat in
      holds log m' (if (target <? length ws)%nat then put_word ws target 0%Z else ws).
Proof. exact zero_ok. Qed.
Print Assumptions C32_clear_exactly.
Theorem C32_clear_partial :
  forall log threads order (m : memory poly) ws addr,
    holds log m ws -> (addr < length ws)%nat -> par_order threads 32 order ->
    (addr mod ring log = (addr / ring log) mod ring log)%nat ->
    exists m', mem_zero (Ideal log) threads order m addr = Some m' /\ holds log m' (put_word ws addr 0%Z).
Proof. exact zero_right. Qed.
Print Assumptions C32_clear_partial.
Example C32_case :
  (0 mod ring 2 = (0 / ring 2) mod ring 2)%nat /\ (5 mod ring 2 = (5 / ring 2) mod ring 2)%nat /\
  (do m' <- mem_zero (Ideal 2) 2 (seq_order 2 32) sample_mem 5; mem_decrypt m' (repeat 0%Z 6))
    = Some [0xDEADBEEF; 7; 0xFFFFFFFF; 0; 0x80000001; 0]%Z /\
  (do m' <- mem_zero (Ideal 2) 2 (seq_order 2 32) sample_mem 1; mem_decrypt m' (repeat 0%Z 6))
    = Some [0; 7; 0xFFFFFFFF; 0; 0x80000001; 42]%Z.
Proof. vm_compute. auto. Qed.

(** C33 is false: words beyond the size are dropped without a panic. *)
Theorem C33_dropped_refuted :
  exists log size (m : memory poly) data m',
    mem_alloc (Ideal log) 32 size = Some m /\ Forall is_word data /\ (size < length data)%nat /\
    mem_encrypt log m data = Some m' /\ holds log m' (firstn size data).
Proof.
  destruct (alloc_shaped 2 6 ltac:(lia)) as (m & E & H).
  assert (F : Forall is_word (sample_words ++ [77%Z])) by (repeat constructor; unfold is_word; lia).
  pose proof (encrypt_eq 2 6 m (sample_words ++ [77%Z]) (holds_shaped 2 m _ H) F) as Q.
  change (length (sample_words ++ [77%Z]) / 32 <=? 6)%nat with true in Q. cbn [andb] in Q.
  destruct Q as (m' & E' & H').
  exists 2%nat, 6%nat, m, (sample_words ++ [77%Z]), m'. repeat (split; [assumption || (cbn; lia)|]). exact H'.
Qed.
Print Assumptions C33_dropped_refuted.
(** The exact behaviour of encryption into a fresh or used memory ... *)
Theorem C33_encrypt_exactly :
  forall log size (m : memory poly) data, shaped log size m -> Forall is_word data ->
    if (length data / 32 <=? size)%nat
    then exists m', mem_encrypt log m data = Some m' /\
           holds log m' (firstn size (data ++ repeat 0%Z size))
    else mem_encrypt log m data = None.
Proof. exact encrypt_eq. Qed.
Print Assumptions C33_encrypt_exactly.
(** ... and the round trip for slices that fit. *)
Theorem C33_round_trip_partial :
  forall log size (m : memory poly) data, (0 < size)%nat -> mem_alloc (Ideal log) 32 size = Some m ->
    Forall is_word data -> (length data <= size)%nat ->
    exists m', mem_encrypt log m data = Some m' /\
      mem_decrypt m' (repeat 0%Z size) = Some (data ++ repeat 0%Z (size - length data)) /\
      mem_decrypt m' (repeat 0%Z (length data)) = Some data.
Proof. exact round_trip. Qed.
Print Assumptions C33_round_trip_partial.
Example C33_case :
  (do m <- mem_alloc (Ideal 2) 32 6; do m' <- mem_encrypt 2 m [0xFFFFFFFF; 3]%Z; mem_decrypt m' (repeat 0%Z 6))
  = Some [0xFFFFFFFF; 3; 0; 0; 0; 0]%Z.
Proof. vm_compute. reflexivity. Qed.

(** C34.  Stated for every implementation [A] of the library primitives; the
    results are equal, not just decryptions. *)
Theorem C34_schedule_irrelevant :
  forall ct pb fu (A : alg ct pb fu) t1 o1 t2 o2 (m : memory ct) addr o w a,
    par_order t1 (length (m_planes m)) o1 -> par_order t2 (length (m_planes m)) o2 ->
    mem_read_stateless A t1 o1 m addr o = mem_read_stateless A t2 o2 m addr o /\
    mem_read_statefull A t1 o1 m addr o = mem_read_statefull A t2 o2 m addr o /\
    mem_read_statefull_rev A t1 o1 m w addr o = mem_read_statefull_rev A t2 o2 m w addr o /\
    mem_write A t1 o1 m w addr o = mem_write A t2 o2 m w addr o /\
    mem_zero A t1 o1 m a = mem_zero A t2 o2 m a.
Proof. exact @schedule_any. Qed.
Print Assumptions C34_schedule_irrelevant.
(** Each plane is processed exactly once, with its own index. *)
Theorem C34_every_plane_once :
  forall threads len order, par_order threads len order ->
    Permutation order (map (fun i => (i, i)) (seq 0 len)).
Proof. exact order_once. Qed.
Print Assumptions C34_every_plane_once.
(** Every positive thread count has a schedule. *)
Theorem C34_every_thread_count :
  forall threads len, (0 < threads)%nat -> (0 < len)%nat -> exists order, par_order threads len order.
Proof. exact order_exists. Qed.
Print Assumptions C34_every_thread_count.
Example C34_case :
  par_order 5 32 (seq_order 5 32) /\ par_order 1 32 (seq_order 1 32) /\
  thread_tasks 3 7 = Some [[(0,0);(1,1);(2,2)]; [(3,3);(4,4);(5,5)]; [(6,6)]]%nat /\
  mem_read_stateless (Ideal 2) 3 (rev_order 3 32) sample_mem addr5 2
  = mem_read_stateless (Ideal 2) 1 (seq_order 1 32) sample_mem addr5 2.
Proof.
  split; [eexists; split; [reflexivity|apply interleave_seq]|].
  split; [eexists; split; [reflexivity|apply interleave_seq]|]. vm_compute. auto.
Qed.

(** C35 *)
Theorem C35_components_prepared :
  forall ct pb fu (A : alg ct pb fu) threads order res bits counts,
    length res = length counts -> length bits = length counts ->
    (forall r, In r res -> length r = 32%nat) -> forallb (fun c => (c <=? 32)%nat) counts = true ->
    par_order threads (list_sum counts) order ->
    exists out, prepare_multiple A threads order res bits counts = Some out /\
      length out = length counts /\
      forall i c w, nth_error counts i = Some c -> nth_error bits i = Some w ->
        nth_error out i =
        Some (map (fun j => if (j <? c)%nat then a_boot A w j else a_pzero A) (seq 0 32)).
Proof. exact @prepare_multiple_ok. Qed.
Print Assumptions C35_components_prepared.
Example C35_case :
  let counts := [5; 2; 4; 32; 5; 5; 5]%nat in
  let ws := [0x15; 7; 0xFFFFFFFF; 0x12345678; 1; 31; 32]%Z in
  par_order 4 (list_sum counts) (seq_order 4 (list_sum counts)) /\
  option_map (map pack_bits)
    (prepare_multiple (Ideal 2) 4 (rev_order 4 58) (repeat (repeat true 32) 7) (map bits_of_word ws) counts)
  = Some [0x15; 3; 15; 0x12345678; 1; 31; 0]%Z.
Proof. split; [eexists; split; [reflexivity|apply interleave_seq]|]. vm_compute. reflexivity. Qed.

(** C44: a pending memory refuses reads and writes, a ready one refuses a
    write-back ... *)
Theorem C44_pending_refuses :
  forall ct pb fu (A : alg ct pb fu) t s (m : memory ct) addr o w, m_state m = true ->
    mem_read_stateless A t s m addr o = None /\ mem_read_statefull A t s m addr o = None /\
    mem_write A t s m w addr o = None.
Proof. exact @pending_refuses. Qed.
Print Assumptions C44_pending_refuses.
Theorem C44_ready_refuses_write_back :
  forall ct pb fu (A : alg ct pb fu) t s (m : memory ct) addr o w, m_state m = false ->
    mem_read_statefull_rev A t s m w addr o = None.
Proof. exact @ready_refuses. Qed.
Print Assumptions C44_ready_refuses_write_back.
(** ... so every sequence of calls that is not refused follows the protocol. *)
Theorem C44_accepted_follow_protocol :
  forall log cs (m m' : memory poly) o, mem_calls log m cs = Some (m', o) ->
    protocol (m_state m) (map c_op cs) = Some (m_state m').
Proof. exact flag_ok. Qed.
Print Assumptions C44_accepted_follow_protocol.
(** But [zero] is not refused on a pending memory, and does damage there:
    clearing word 5 while it is out for modification clears word 1. *)
Theorem C44_clear_pending_refuted :
  exists log (m m1 m2 m3 : memory poly) ws c,
    holds log m ws /\
    mem_read_statefull (Ideal log) 1 (seq_order 1 32) m addr5 2 = Some (m1, c) /\ m_state m1 = true /\
    mem_zero (Ideal log) 1 (seq_order 1 32) m1 5 = Some m2 /\
    mem_read_statefull_rev (Ideal log) 1 (seq_order 1 32) m2 (bits_of_word 42) addr5 2 = Some m3 /\
    ws = [0xDEADBEEF; 7; 0xFFFFFFFF; 0; 0x80000001; 42]%Z /\
    mem_decrypt m3 (repeat 0%Z 6) = Some [0xDEADBEEF; 0; 0xFFFFFFFF; 0; 0x80000001; 42]%Z.
Proof.
  destruct (mem_read_statefull (Ideal 2) 1 (seq_order 1 32) sample_mem addr5 2) as [[m1 c]|] eqn:E1;
    [|vm_compute in E1; discriminate].
  destruct (mem_zero (Ideal 2) 1 (seq_order 1 32) m1 5) as [m2|] eqn:E2;
    [|vm_compute in E1; injection E1 as <- <-; vm_compute in E2; discriminate].
  destruct (mem_read_statefull_rev (Ideal 2) 1 (seq_order 1 32) m2 (bits_of_word 42) addr5 2) as [m3|] eqn:E3;
    [|vm_compute in E1; injection E1 as <- <-; vm_compute in E2; injection E2 as <-; vm_compute in E3; discriminate].
  exists 2%nat, sample_mem, m1, m2, m3, sample_words, c. split; [apply sample_holds|].
  vm_compute in E1. injection E1 as <- <-. vm_compute in E2. injection E2 as <-.
  vm_compute in E3. injection E3 as <-.
  split; [vm_compute; reflexivity|]. split; [reflexivity|]. split; [vm_compute; reflexivity|].
  split; [vm_compute; reflexivity|]. split; [reflexivity|]. vm_compute. reflexivity.
Qed.
Print Assumptions C44_clear_pending_refuted.
(** A write-back to a different address is not refused either. *)
Theorem C44_other_address_refuted :
  exists log (m m1 m3 : memory poly) ws c,
    holds log m ws /\
    mem_read_statefull (Ideal log) 1 (seq_order 1 32) m addr5 2 = Some (m1, c) /\
    mem_read_statefull_rev (Ideal log) 1 (seq_order 1 32) m1 c addr5 3 = Some m3 /\
    mem_decrypt m3 (repeat 0%Z 6) <> Some ws.
Proof.
  destruct (mem_read_statefull (Ideal 2) 1 (seq_order 1 32) sample_mem addr5 2) as [[m1 c]|] eqn:E1;
    [|vm_compute in E1; discriminate].
  destruct (mem_read_statefull_rev (Ideal 2) 1 (seq_order 1 32) m1 c addr5 3) as [m3|] eqn:E3;
    [|vm_compute in E1; injection E1 as <- <-; vm_compute in E3; discriminate].
  exists 2%nat, sample_mem, m1, m3, sample_words, c. split; [apply sample_holds|].
  vm_compute in E1. injection E1 as <- <-. vm_compute in E3. injection E3 as <-.
  split; [vm_compute; reflexivity|]. split; [vm_compute; reflexivity|]. vm_compute. discriminate.
Qed.
Print Assumptions C44_other_address_refuted.
Example C44_case :
  m_state sample_mem = false /\
  mem_read_statefull_rev (Ideal 2) 1 (seq_order 1 32) sample_mem (bits_of_word 1) addr5 2 = None /\
  protocol false [Read addr5 2; ReadKeep addr5 2; WriteBack [] addr5 2; Write [] addr5 2] = Some false /\
  protocol false [ReadKeep addr5 2; Read addr5 2] = None.
Proof. vm_compute. auto. Qed.
