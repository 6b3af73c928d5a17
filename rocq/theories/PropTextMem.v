(** * Property C97: the models of the encrypted memory are the text of the
    repository

    [TextMem] holds the functions of fhevm/src/memory.rs, translated token by
    token by tools/gen_lib.py over an abstract library (RustLib.v); [lib]
    (TextLib.v) is the library made of the operations [A] over which EncMem.v is
    written and of the scratch sizes [sp] of Scratch.v.  [mem_of l] gives every
    ciphertext of a memory of the model the layout [l].  The statements are for
    every build profile [p], every set of operations [A], all sizes, every
    content [garbage] of the scratch space, every layout, every number of threads
    and, since the right-hand sides do not mention it elsewhere, every order
    [order] in which the threads' tasks can run.  The text is translated with the
    threads running one after the other. *)
Require Import ZArith List Bool Lia.
From Verif Require Import Rust RustIter RustLib TextLib TextLoop TextMemFacts TextMemClient.
Require Verif.Word Verif.Glwe Verif.Par Verif.EncMem Verif.Scratch Verif.MemSpec Verif.ParFacts Verif.MemOps Verif.PropMem.
Require Verif.TextMem.
Module MS := Verif.MemSpec.
Import ListNotations.
Open Scope Z_scope.

(** a memory of 32 planes, all of them with the memory's number of address bits *)
Definition planes32 {ct} (m : M.memory ct) : Prop :=
  length (M.m_planes m) = 32%nat /\ Forall (fun b => M.ba_bits b = M.m_bits m) (M.m_planes m) /\
  Z.of_nat (M.m_bits m) < 2 ^ 64.
(** the sizes of scratch space are not negative *)
Definition sizes_at {GL KL SL} (sp : space GL KL SL) (l wl : GL) (sl : SL) (kl : KL) : Prop :=
  0 <= s_glwe sp l /\ 0 <= s_glwe sp wl /\ 0 <= s_rotation sp l sl /\ 0 <= s_retrieval sp l sl /\
  0 <= s_trace sp l l kl /\ 0 <= s_normalize sp /\ 0 <= s_rotate sp.
(** [k] bytes, and [threads] times as many, are numbers of bytes *)
Definition bytes_fit (threads : nat) (k : Z) : Prop := k < 2 ^ 64 /\ Z.of_nat threads * k < 2 ^ 64.

Section Server.
Context {ct pb fu GL KL SL Src : Type}.
Variables (A : G.alg ct pb fu) (sp : space GL KL SL) (garbage : Z -> nat -> ct) (garbage_i64 : Z -> nat -> int I64)
  (gl_n : GL -> Z) (enc : Z -> list Z -> ct) (dec : Z -> ct -> list Z) (next : Src -> Src).
Notation L := (lib A sp garbage garbage_i64 gl_n enc dec next).
Notation mem_of := (mem_of A sp garbage garbage_i64 gl_n enc dec next).
Notation log := (G.log_n A).

(** The statefull read, its write-back, and the write: the text panics if the
    scratch space does not suffice by Scratch.v, or if the model panics;
    otherwise it leaves the memory, and returns the word, of the model. *)
Theorem C97_read_statefull :
  forall p l wl sl kl m threads order addr off r0 avail,
    planes32 m -> (threads <> 0%nat -> M.par_order threads 32 order) ->
    Z.of_nat off + Z.of_nat log < 2 ^ 64 ->
    let c := costs_at sp l wl sl kl in
    0 <= Sc.statefull_bytes c (Z.of_nat log) (Z.of_nat (M.m_bits m)) ->
    bytes_fit threads (Sc.statefull_bytes c (Z.of_nat log) (Z.of_nat (M.m_bits m))) ->
    T.Memory_read_statefull L p (mem_of l m) (Int (Z.of_nat threads)) tt (wl, r0) (sl, addr) (Int (Z.of_nat off)) kl avail =
    match Sc.read_statefull_space c (Z.of_nat log) (Z.of_nat (M.m_bits m)) (Z.of_nat threads) avail,
          M.mem_read_statefull A threads order m addr off with
    | Some _, Some (m', w) => Some (mem_of l m', (wl, w))
    | _, _ => None
    end.
Proof.
  intros p l wl sl kl m threads order addr off r0 avail (H1 & H2 & H3) H4 H5 c H6 (H7 & H8).
  apply (read_statefull_text A sp garbage garbage_i64 gl_n enc dec next p l wl sl kl m threads order H1 H2 H3 H4 addr off r0 avail H5).
  fold c. unfold b64. change (2 ^ 64) with 18446744073709551616 in *. nia.
Qed.

Theorem C97_read_statefull_rev :
  forall p l wl sl kl m threads order w addr off avail,
    planes32 m -> (threads <> 0%nat -> M.par_order threads 32 order) ->
    Z.of_nat off + Z.of_nat log < 2 ^ 64 -> sizes_at sp l wl sl kl ->
    let c := costs_at sp l wl sl kl in
    bytes_fit threads (Sc.rev_bytes c (Z.of_nat log) (Z.of_nat (M.m_bits m)) + s_glwe sp wl) ->
    T.Memory_read_statefull_rev L p (mem_of l m) (Int (Z.of_nat threads)) tt (wl, w) (sl, addr) (Int (Z.of_nat off)) kl avail =
    match Sc.read_statefull_rev_space c (Z.of_nat log) (Z.of_nat (M.m_bits m)) (Z.of_nat threads) avail,
          M.mem_read_statefull_rev A threads order m w addr off with
    | Some _, Some m' => Some (mem_of l m')
    | _, _ => None
    end.
Proof.
  intros p l wl sl kl m threads order w addr off avail (H1 & H2 & H3) H4 H5 H6 c (H7 & H8).
  exact (read_statefull_rev_text A sp garbage garbage_i64 gl_n enc dec next p l wl sl kl m threads order H1 H2 H3 H4 addr off w avail H6 H5 H7 H8).
Qed.

Theorem C97_write :
  forall p l wl sl kl m threads order w addr off avail,
    planes32 m -> (threads <> 0%nat -> M.par_order threads 32 order) ->
    Z.of_nat off + Z.of_nat log < 2 ^ 64 -> sizes_at sp l wl sl kl ->
    let c := costs_at sp l wl sl kl in
    bytes_fit threads (Sc.rev_bytes c (Z.of_nat log) (Z.of_nat (M.m_bits m)) + s_glwe sp wl) ->
    T.Memory_write L p (mem_of l m) (Int (Z.of_nat threads)) tt (wl, w) (sl, addr) (Int (Z.of_nat off)) kl avail =
    match Sc.write_space c (Z.of_nat log) (Z.of_nat (M.m_bits m)) (Z.of_nat threads) avail,
          M.mem_write A threads order m w addr off with
    | Some _, Some m' => Some (mem_of l m')
    | _, _ => None
    end.
Proof.
  intros p l wl sl kl m threads order w addr off avail (H1 & H2 & H3) H4 H5 H6 c (H7 & H8).
  exact (write_text A sp garbage garbage_i64 gl_n enc dec next p l wl sl kl m threads order H1 H2 H3 H4 addr off w avail H6 H5 H7 H8).
Qed.

(** The stateless read: the scratch space is counted with the layout of the
    memory and used with that of the word, so they are asked to be the same. *)
Theorem C97_read_stateless :
  forall p l sl kl m threads order addr off r0 avail,
    planes32 m -> (threads <> 0%nat -> M.par_order threads 32 order) ->
    Z.of_nat off + Z.of_nat log < 2 ^ 64 ->
    let c := costs_at sp l l sl kl in
    0 <= Sc.stateless_bytes c -> bytes_fit threads (Sc.stateless_bytes c) ->
    T.Memory_read_stateless L p (mem_of l m) (Int (Z.of_nat threads)) tt (l, r0) (sl, addr) (Int (Z.of_nat off)) kl avail =
    match Sc.read_stateless_space c (Z.of_nat threads) avail,
          M.mem_read_stateless A threads order m addr off with
    | Some _, Some (m', w) => Some (mem_of l m', (l, w))
    | _, _ => None
    end.
Proof.
  intros p l sl kl m threads order addr off r0 avail (H1 & H2 & H3) H4 H5 c H6 (H7 & H8).
  apply (read_stateless_text A sp garbage garbage_i64 gl_n enc dec next p l l sl kl m threads order H1 H2 H4 addr off r0 avail eq_refl H5).
  fold c. unfold b64. change (2 ^ 64) with 18446744073709551616 in *. nia.
Qed.

Theorem C97_zero :
  forall p l wl sl kl m threads order addr avail,
    planes32 m -> (threads <> 0%nat -> M.par_order threads 32 order) ->
    (log <= 62)%nat -> Z.of_nat addr < 2 ^ 64 -> sizes_at sp l wl sl kl ->
    bytes_fit threads (Z.max (s_rotate sp) (s_trace sp l l kl) + s_glwe sp l) ->
    T.Memory_zero L p (mem_of l m) (Int (Z.of_nat threads)) tt (Int (Z.of_nat addr)) kl avail =
    match Sc.zero_space (costs_at sp l wl sl kl) (Z.of_nat threads) avail,
          M.mem_zero A threads order m addr with
    | Some _, Some m' => Some (mem_of l m')
    | _, _ => None
    end.
Proof.
  intros p l wl sl kl m threads order addr avail (H1 & H2 & H3) H4 H5 H6 H7 (H8 & H9).
  exact (zero_text A sp garbage garbage_i64 gl_n enc dec next p l wl sl kl m threads order H1 H2 H4 addr avail H7 H5 H6 H8 H9).
Qed.
End Server.
Print Assumptions C97_read_statefull.
Print Assumptions C97_read_statefull_rev.
Print Assumptions C97_write.
Print Assumptions C97_read_stateless.
Print Assumptions C97_zero.

(** ** The client's half, with the ideal encryption: a ciphertext is its message *)
Section Client.
Context {pb fu GL KL SL Src : Type}.
Variables (A : G.alg (list Z) pb fu) (sp : space GL KL SL) (garbage : Z -> nat -> list Z) (garbage_i64 : Z -> nat -> int I64)
  (gl_n : GL -> Z) (enc : Z -> list Z -> list Z) (dec : Z -> list Z -> list Z) (next : Src -> Src).
Notation L := (lib A sp garbage garbage_i64 gl_n enc dec next).
Notation mem_of := (mem_of A sp garbage garbage_i64 gl_n enc dec next).
Notation log := (G.log_n A).

Theorem C97_alloc :
  forall p l words size, gl_n l = 2 ^ Z.of_nat log -> (0 < size)%nat -> Z.of_nat size < 2 ^ 64 ->
    T.Memory_alloc L p l (Int (Z.of_nat words)) (Int (Z.of_nat size)) =
    option_map (mem_of l) (M.mem_alloc A words size).
Proof.
  intros p l words size H1 H2 H3. exact (alloc_text A sp garbage garbage_i64 gl_n enc dec next p l words size H1 H3 H2).
Qed.

(** Every polynomial of the memory that gets words is one encryption: the two
    random sources advance by as many. *)
Theorem C97_encrypt :
  forall p l m data xa xe avail,
    (forall x, enc 2 x = x) ->
    Forall (fun b => M.ba_data b <> []) (M.m_planes m) ->
    0 <= s_plain sp l -> 0 <= s_encrypt sp l ->
    s_plain sp l + 8 * 2 ^ Z.of_nat log + s_encrypt sp l <= avail ->
    let k := list_sum (map (plane_chunks A (M.m_size m)) (M.m_planes m)) in
    T.Memory_encrypt_sk L p (mem_of l m) tt (map Int data) tt xa xe avail =
    option_map (fun m' => (mem_of l m', advance next k xa, advance next k xe)) (M.mem_encrypt log m data).
Proof.
  intros p l m data xa xe avail H1 H2 H3 H4 H5 k.
  exact (encrypt_text A sp garbage garbage_i64 gl_n enc dec next H1 p l m data xa xe avail H2 H3 H4 H5).
Qed.

(** Decryption, of coefficients whose last byte is 1 only if they are. *)
Theorem C97_decrypt :
  forall p l m data avail,
    (forall x, dec 2 x = x) ->
    (length (M.m_planes m) <= 32)%nat ->
    Forall (fun b => M.ba_data b <> [] /\
              Forall (fun q => length q = G.ring log /\ Forall (fun x => -255 < x < 257) q) (M.ba_data b)) (M.m_planes m) ->
    Forall MS.is_word data ->
    0 <= s_plain sp l -> 0 <= s_decrypt sp l ->
    s_plain sp l + 8 * 2 ^ Z.of_nat log + s_decrypt sp l <= avail ->
    T.Memory_decrypt L p (mem_of l m) tt (map Int data) tt avail = option_map (map Int) (M.mem_decrypt m data).
Proof.
  intros p l m data avail H1 H2 H3 H4 H5 H6 H7.
  exact (decrypt_text A sp garbage garbage_i64 gl_n enc dec next H1 p l m data avail H2 H3 H4 H5 H6 H7).
Qed.
End Client.
Print Assumptions C97_alloc.
Print Assumptions C97_encrypt.
Print Assumptions C97_decrypt.

(** ** What the text computes, without the model: an array *)
Section Array.
Context {GL KL SL Src : Type}.
Variables (log : nat) (sp : space GL KL SL) (garbage : Z -> nat -> list Z) (garbage_i64 : Z -> nat -> int I64)
  (gl_n : GL -> Z) (enc : Z -> list Z -> list Z) (dec : Z -> list Z -> list Z) (next : Src -> Src).
Notation A := (G.Ideal log).
Notation L := (lib A sp garbage garbage_i64 gl_n enc dec next).
Notation mem_of := (mem_of A sp garbage garbage_i64 gl_n enc dec next).

Lemma holds_planes : forall m ws, MS.holds log m ws -> Z.of_nat (length ws) < 2 ^ 64 -> planes32 m.
Proof.
  intros m ws (H1 & H2 & H3 & H4 & H5 & H6) B. split; [exact H5|]. split.
  - apply Forall_forall. intros b I. apply In_nth_error in I. destruct I as [i I].
    destruct (H6 i b I) as [[S _] _]. congruence.
  - unfold Verif.Word.bit_len_pred in H2. destruct (Z.leb_spec (Z.of_nat (length ws)) 0); [discriminate|].
    injection H2 as <-. destruct (Z.eqb_spec (Z.of_nat (length ws)) 1); [cbn; lia|].
    assert (Z.log2 (Z.of_nat (length ws) - 1) < 64) by (apply Z.log2_lt_pow2; lia).
    pose proof (Z.log2_nonneg (Z.of_nat (length ws) - 1)). change (2 ^ 64) with 18446744073709551616. lia.
Qed.
Lemma some_order : forall threads, threads <> 0%nat -> M.par_order threads 32 (PropMem.seq_order threads 32).
Proof.
  intros t H. destruct (ParFacts.thread_tasks_cover t 32 ltac:(lia) ltac:(lia)) as (ts & E & _).
  unfold PropMem.seq_order. rewrite E. exists ts. split; auto. apply ParFacts.interleave_seq.
Qed.

Lemma statefull_planes : forall threads order m addr off m1 r,
  planes32 m -> M.par_order threads 32 order ->
  M.mem_read_statefull A threads order m addr off = Some (m1, r) -> planes32 m1 /\ M.m_bits m1 = M.m_bits m.
Proof.
  intros threads order m addr off m1 r (H1 & H2 & H3) OR E. unfold M.mem_read_statefull in E.
  destruct (M.nonempty m); [|discriminate]. destruct (negb (M.m_state m)); [|discriminate].
  rewrite MemOps.region_eq in E by (unfold M.with_out; rewrite map_length, H1; exact OR).
  destruct (ParFacts.mapi_o _ 0 _) as [cells|] eqn:C in E; [|discriminate].
  destruct (M.pack_out A cells); [|discriminate]. injection E as <- _. cbn [M.m_bits M.m_planes].
  split; [|reflexivity].
  assert (K : forall k (bs : list (M.bitarray (list Z))) cs,
     ParFacts.mapi_o (fun (_ : nat) c => match M.ba_read_statefull A (fst c) addr off with
                              | Some (b, r) => Some (b, Some r) | None => None end) k (map (fun b => (b, @None (list Z))) bs) = Some cs ->
     map (@M.ba_bits _) (map fst cs) = map (@M.ba_bits _) bs).
  { intros k bs. revert k. induction bs as [|b bs IH]; intros k cs Q; cbn in Q.
    - injection Q as <-. reflexivity.
    - destruct (M.ba_read_statefull A b addr off) as [[b' r']|] eqn:R; [|discriminate].
      destruct (ParFacts.mapi_o _ (Datatypes.S k) _) as [cs'|] eqn:Q2 in Q; [|discriminate]. injection Q as <-.
      cbn [map fst]. rewrite (IH _ _ Q2). f_equal. unfold M.ba_read_statefull in R.
      destruct (M.ba_gather A b addr off) as [d|]; [|discriminate].
      destruct (nth_error d 0); [|discriminate]. destruct (G.blind_rotate A _ _ _ _ _); [|discriminate].
      destruct (Verif.Word.set_nth d 0 _); [|discriminate]. injection R as <- _. reflexivity. }
  specialize (K 0%nat _ cells C). unfold planes32. cbn [M.m_planes M.m_bits]. split; [|split; [|exact H3]].
  - transitivity (length (map (@M.ba_bits _) (map fst cells))); [now rewrite !map_length|]. rewrite K, map_length. exact H1.
  - apply Forall_forall. intros b I. apply (in_map (@M.ba_bits _)) in I. rewrite K in I. apply in_map_iff in I.
    destruct I as (b' & <- & I). exact (proj1 (Forall_forall _ _) H2 b' I).
Qed.

Theorem C97_array :
  forall p l sl kl m ws threads addr off a w v r0 avail,
    MS.holds log m ws -> Z.of_nat (length ws) < 2 ^ 64 -> (a < length ws)%nat -> threads <> 0%nat ->
    MS.addresses addr off (M.m_bits m) a -> Z.of_nat off + Z.of_nat log < 2 ^ 64 -> MS.enc_of w v ->
    sizes_at sp l l sl kl ->
    let c := costs_at sp l l sl kl in
    let k := Z.of_nat (M.m_bits m) in
    (** reading *)
    (0 <= Sc.stateless_bytes c -> bytes_fit threads (Sc.stateless_bytes c) ->
     Sc.read_stateless_space c (Z.of_nat threads) avail <> None ->
     exists r, T.Memory_read_stateless L p (mem_of l m) (Int (Z.of_nat threads)) tt (l, r0) (sl, addr) (Int (Z.of_nat off)) kl avail
         = Some (mem_of l m, (l, r)) /\ MS.enc_of r (nth a ws 0)) /\
    (** writing *)
    (bytes_fit threads (Sc.rev_bytes c (Z.of_nat log) k + s_glwe sp l) ->
     Sc.write_space c (Z.of_nat log) k (Z.of_nat threads) avail <> None ->
     exists m', T.Memory_write L p (mem_of l m) (Int (Z.of_nat threads)) tt (l, w) (sl, addr) (Int (Z.of_nat off)) kl avail
         = Some (mem_of l m') /\ MS.holds log m' (MS.put_word ws a v)) /\
    (** reading and writing back *)
    (bytes_fit threads (Sc.rev_bytes c (Z.of_nat log) k + s_glwe sp l) ->
     Sc.read_statefull_space c (Z.of_nat log) k (Z.of_nat threads) avail <> None ->
     Sc.read_statefull_rev_space c (Z.of_nat log) k (Z.of_nat threads) avail <> None ->
     exists m1 r m2,
       T.Memory_read_statefull L p (mem_of l m) (Int (Z.of_nat threads)) tt (l, r0) (sl, addr) (Int (Z.of_nat off)) kl avail
         = Some (mem_of l m1, (l, r)) /\ MS.enc_of r (nth a ws 0) /\
       T.Memory_read_statefull_rev L p (mem_of l m1) (Int (Z.of_nat threads)) tt (l, w) (sl, addr) (Int (Z.of_nat off)) kl avail
         = Some (mem_of l m2) /\ MS.holds log m2 (MS.put_word ws a v)).
Proof.
  intros p l sl kl m ws threads addr off a w v r0 avail H B LT NT AD OFF W SZ c k.
  pose proof (holds_planes m ws H B) as PL. pose proof (some_order threads NT) as OR.
  split; [|split].
  - intros B1 B2 SP.
    destruct (PropMem.C29_read_is_array_read log threads _ m ws addr off a H OR AD) as (r & E & R).
    exists r. split; [|exact R].
    rewrite (C97_read_stateless A sp garbage garbage_i64 gl_n enc dec next p l sl kl m threads _ addr off r0 avail PL (fun _ => OR) OFF B1 B2).
    fold c. destruct (Sc.read_stateless_space c (Z.of_nat threads) avail); [|congruence].
    change (G.log_n A) with log in *. rewrite E. reflexivity.
  - intros B1 SP.
    destruct (PropMem.C31_write_is_array_update log threads _ m ws addr off a w v H LT OR AD W) as (m' & E & R).
    exists m'. split; [|exact R].
    rewrite (C97_write A sp garbage garbage_i64 gl_n enc dec next p l l sl kl m threads _ w addr off avail PL (fun _ => OR) OFF SZ B1).
    change (G.log_n A) with log in *. fold c k.
    destruct (Sc.write_space c (Z.of_nat log) k (Z.of_nat threads) avail); [|congruence]. rewrite E. reflexivity.
  - intros B1 S1 S2.
    destruct (PropMem.C30_read_write_back log threads _ m ws addr off a H LT OR AD) as (m1 & r & E & R & ST & NEXT).
    destruct (NEXT threads _ w v OR W) as (m2 & E2 & H2).
    exists m1, r, m2.
    assert (SB : 0 <= Sc.statefull_bytes c (Z.of_nat log) k /\
       Sc.statefull_bytes c (Z.of_nat log) k <= Sc.rev_bytes c (Z.of_nat log) k + s_glwe sp l).
    { unfold sizes_at in SZ. unfold Sc.statefull_bytes, Sc.rev_bytes, c. cbn [Sc.k_retrieval Sc.k_rotation Sc.k_trace Sc.k_glwe Sc.k_normalize costs_at].
      destruct (Sc.large (Z.of_nat log) k); lia. }
    assert (FT : bytes_fit threads (Sc.statefull_bytes c (Z.of_nat log) k)).
    { destruct B1 as [B1 B2]. unfold bytes_fit. split; [lia|nia]. }
    split; [|split; [exact R|split; [|exact H2]]].
    + rewrite (C97_read_statefull A sp garbage garbage_i64 gl_n enc dec next p l l sl kl m threads _ addr off r0 avail PL (fun _ => OR) OFF (proj1 SB) FT).
      change (G.log_n A) with log in *. fold c k.
      destruct (Sc.read_statefull_space c (Z.of_nat log) k (Z.of_nat threads) avail); [|congruence]. rewrite E. reflexivity.
    + destruct (statefull_planes threads _ m addr off m1 r PL OR E) as [PL1 MB].
      unfold k in B1. rewrite <- MB in B1.
      rewrite (C97_read_statefull_rev A sp garbage garbage_i64 gl_n enc dec next p l l sl kl m1 threads _ w addr off avail PL1 (fun _ => OR) OFF SZ B1).
      change (G.log_n A) with log in *. rewrite MB. fold c k.
      destruct (Sc.read_statefull_rev_space c (Z.of_nat log) k (Z.of_nat threads) avail); [|congruence]. rewrite E2. reflexivity.
Qed.
End Array.

Print Assumptions C97_array.

(** ** A case: the text run from allocation to decryption

    32 planes of two polynomials of four coefficients, two threads; the layouts
    are numbers, every operation needs a few bytes and the scratch space is full
    of sevens.  Address bits 2..4 of [addr5] are the number 5. *)
Definition ex_sp : space nat nat nat :=
  {| s_glwe := fun _ => 64; s_rotate := 8; s_trace := fun _ _ _ => 16; s_rotation := fun _ _ => 24;
     s_retrieval := fun _ _ => 32; s_select := fun _ _ => 40; s_normalize := 8; s_bit := fun _ _ _ => 16;
     s_pack := fun _ _ _ => 16; s_plain := fun _ => 64; s_encrypt := fun _ => 8; s_decrypt := fun _ => 8 |}.
Definition ex_L := lib (G.Ideal 2) ex_sp (fun _ _ => repeat 7 4) (fun _ _ => Int 7) (fun _ => 4) (fun _ x => x) (fun _ x => x) (fun s : nat => Datatypes.S s).
Definition ex_mem := mem_of (G.Ideal 2) ex_sp (fun _ _ => repeat 7 4) (fun _ _ => Int 7) (fun _ => 4) (fun _ x => x) (fun _ x => x) (fun s : nat => Datatypes.S s).

Definition runs {X} (o : option X) : bool := match o with Some _ => true | None => false end.
Example C97_case :
  MS.holds 2 PropMem.sample_mem PropMem.sample_words /\ planes32 PropMem.sample_mem /\
  MS.addresses PropMem.addr5 2 3 5 /\ sizes_at ex_sp 0%nat 0%nat 0%nat 0%nat /\
  bytes_fit 2 (Sc.rev_bytes (costs_at ex_sp 0%nat 0%nat 0%nat 0%nat) 2 3 + 64) /\
  Sc.write_space (costs_at ex_sp 0%nat 0%nat 0%nat 0%nat) 2 3 2 20000 <> None /\
  (exists r1 r2,
     (m0 <- T.Memory_alloc ex_L (Build_profile true true) 0%nat (Int 32) (Int 6);;
      '(m1, xa, xe) <- T.Memory_encrypt_sk ex_L (Build_profile true true) m0 tt (map Int PropMem.sample_words) tt 0%nat 10%nat 200;;
      '(m2, a) <- T.Memory_read_stateless ex_L (Build_profile true true) m1 (Int 2) tt (0%nat, []) (0%nat, PropMem.addr5) (Int 2) 0%nat 20000;;
      '(m3, b) <- T.Memory_read_statefull ex_L (Build_profile true true) m2 (Int 2) tt (0%nat, []) (0%nat, PropMem.addr5) (Int 2) 0%nat 20000;;
      m4 <- T.Memory_read_statefull_rev ex_L (Build_profile true true) m3 (Int 2) tt (0%nat, PropMem.bits_of_word 99) (0%nat, PropMem.addr5) (Int 2) 0%nat 20000;;
      m5 <- T.Memory_write ex_L (Build_profile true true) m4 (Int 3) tt (0%nat, PropMem.bits_of_word 5) (0%nat, PropMem.addr5) (Int 3) 0%nat 20000;;
      m6 <- T.Memory_zero ex_L (Build_profile true true) m5 (Int 2) tt (Int 0) 0%nat 20000;;
      d <- T.Memory_decrypt ex_L (Build_profile true true) m6 tt (map Int (repeat 0 6)) tt 200;;
      Some (d, a, b, xa, xe)) = Some (map Int [0; 7; 5; 0; 0x80000001; 99], (0%nat, r1), (0%nat, r2), 64%nat, 74%nat) /\
     G.decrypt_word r1 = 42 /\ r2 = r1) /\
  (** 288 bytes are enough for the write; with one byte less it panics *)
  runs (T.Memory_write ex_L (Build_profile true true) (ex_mem 0%nat PropMem.sample_mem) (Int 2) tt (0%nat, PropMem.bits_of_word 5) (0%nat, PropMem.addr5) (Int 3) 0%nat 288) = true /\
  runs (T.Memory_write ex_L (Build_profile true true) (ex_mem 0%nat PropMem.sample_mem) (Int 2) tt (0%nat, PropMem.bits_of_word 5) (0%nat, PropMem.addr5) (Int 3) 0%nat 287) = false.
Proof.
  split; [exact PropMem.sample_holds|]. split; [apply (holds_planes 2 _ _ PropMem.sample_holds); vm_compute; reflexivity|].
  split; [exact PropMem.addr5_ok|]. split; [repeat split; cbn; lia|]. split; [split; vm_compute; reflexivity|].
  split; [vm_compute; discriminate|]. split; [|split; vm_compute; reflexivity].
  do 2 eexists. split; [vm_compute; reflexivity|]. vm_compute. auto.
Qed.
