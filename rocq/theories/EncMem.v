(** * Encrypted memory

    Model of fhevm/src/memory.rs over the library signature [alg].  A panic is
    [None].  Scratch-space accounting and noise are not modelled.  Operations
    with worker threads take the thread count and the order in which the
    tasks of all threads happen to be executed ([Par]). *)
Require Import ZArith List Bool.
Require Import Verif.Word Verif.Glwe Verif.Par.
Import ListNotations.
Open Scope nat_scope.

(** memory.rs:436-440 ([retriever] is only scratch space) *)
Record bitarray (ct : Type) := BitArray { ba_data : list ct; ba_bits : nat }.
(** memory.rs:22-27 *)
Record memory (ct : Type) := Memory {
  m_planes : list (bitarray ct); m_size : nat; m_bits : nat; m_state : bool }.
Arguments BitArray {ct}. Arguments ba_data {ct}. Arguments ba_bits {ct}.
Arguments Memory {ct}. Arguments m_planes {ct}. Arguments m_size {ct}. Arguments m_bits {ct}. Arguments m_state {ct}.

Section Mem.
Context {ct pb fu : Type} (A : alg ct pb fu).

(** memory.rs:443-455 *)
Definition ba_alloc (size : nat) : option (bitarray ct) :=
  do k <- bit_len_pred (Z.of_nat size);
  do c <- div_ceil size (ring (log_n A));
  Some (BitArray (repeat (a_zero A) c) k).
(** memory.rs:30-42 *)
Definition mem_alloc (word_size size : nat) : option (memory ct) :=
  do k <- bit_len_pred (Z.of_nat size);
  do b <- ba_alloc size;
  Some (Memory (repeat b word_size) size k false).

(** memory.rs:552-583 *)
Definition ba_read_stateless (b : bitarray ct) (addr : list pb) (offset : nat) : option ct :=
  do r <- blind_retrieve A (ba_data b) addr (offset + log_n A);
  blind_rotate A false addr offset (min (log_n A) (ba_bits b)) r.

(** the swap network, when the memory has more than one polynomial
    (memory.rs:619-627, 762-770 and, in reverse, 709-717, 800-808) *)
Definition ba_gather (b : bitarray ct) (addr : list pb) (offset : nat) : option (list ct) :=
  if log_n A <? ba_bits b
  then retrieval_statefull A addr (offset + log_n A) (ba_bits b - log_n A) (ba_data b)
  else Some (ba_data b).
Definition ba_scatter (bits : nat) (data : list ct) (addr : list pb) (offset : nat) : option (list ct) :=
  if log_n A <? bits
  then retrieval_statefull_rev A addr (offset + log_n A) (bits - log_n A) data
  else Some data.

(** memory.rs:606-638: the new array and the bit read *)
Definition ba_read_statefull (b : bitarray ct) (addr : list pb) (offset : nat)
    : option (bitarray ct * ct) :=
  do d <- ba_gather b addr offset;
  do d0 <- nth_error d 0;
  do d0' <- blind_rotate A false addr offset (min (log_n A) (ba_bits b)) d0;
  do d' <- set_nth d 0 d0';
  Some (BitArray d' (ba_bits b), d0').

(** memory.rs:669-718 *)
Definition ba_read_statefull_rev (b : bitarray ct) (w : ct) (addr : list pb) (offset : nat)
    : option (bitarray ct) :=
  do d0 <- nth_error (ba_data b) 0;
  let d0 := a_add A (a_sub A d0 (a_trace A d0)) w in
  do d0' <- blind_rotate A true addr offset (min (log_n A) (ba_bits b)) d0;
  do d <- set_nth (ba_data b) 0 d0';
  do d' <- ba_scatter (ba_bits b) d addr offset;
  Some (BitArray d' (ba_bits b)).

(** memory.rs:740-809 *)
Definition ba_write (b : bitarray ct) (w : ct) (addr : list pb) (offset : nat) : option (bitarray ct) :=
  do d <- ba_gather b addr offset;
  do d0 <- nth_error d 0;
  do d0 <- blind_rotate A false addr offset (min (log_n A) (ba_bits b)) d0;
  let d0 := a_add A (a_sub A d0 (a_trace A d0)) w in
  do d0' <- blind_rotate A true addr offset (min (log_n A) (ba_bits b)) d0;
  do d <- set_nth d 0 d0';
  do d' <- ba_scatter (ba_bits b) d addr offset;
  Some (BitArray d' (ba_bits b)).

(** one plane of memory.rs:140-191.  [idx] is computed from [poly]
    (memory.rs:154), not from [addr]. *)
Definition zero_poly_of (addr : nat) : nat := addr / ring (log_n A).
Definition zero_idx_of (addr : nat) : nat := zero_poly_of addr mod ring (log_n A).
Definition ba_zero (addr : nat) (b : bitarray ct) : option (bitarray ct) :=
  let idx := Z.of_nat (zero_idx_of addr) in
  do a <- nth_error (ba_data b) (zero_poly_of addr);
  let a := a_rot A (- idx) a in
  let a := a_sub A a (a_trace A a) in
  let a := a_rot A idx a in
  do d <- set_nth (ba_data b) (zero_poly_of addr) a;
  Some (BitArray d (ba_bits b)).

(** ** whole memory.  [order] is the execution order of the tasks; the
    interleavings that can happen are given by [par_order]. *)
Definition par_order (threads len : nat) (order : list task) : Prop :=
  exists ts, thread_tasks threads len = Some ts /\ interleave ts order.

(** a parallel region panics when the tasks cannot be cut into chunks *)
Definition region {B} (threads : nat) (order : list task) (g : nat -> B -> option B) (cells : list B)
    : option (list B) :=
  do _ <- thread_tasks threads (length cells); run_tasks g order cells.

Definition nonempty (m : memory ct) : bool :=
  match m_planes m with
  | [] => false
  | b :: _ => match ba_data b with [] => false | _ => true end
  end.

(** the cell of a reading task: the plane and its place in [tmp_res] *)
Definition with_out (m : memory ct) : list (bitarray ct * option ct) :=
  map (fun b => (b, None)) (m_planes m).
(** [res.pack(tmp_res)]; every entry of [tmp_res] must have been written, an
    entry still holding scratch space would make the result meaningless. *)
Fixpoint all_written {B} (l : list (option B)) : option (list B) :=
  match l with
  | [] => Some []
  | o :: r => do x <- o; do xs <- all_written r; Some (x :: xs)
  end.
Definition pack_out (cells : list (bitarray ct * option ct)) : option fu :=
  do outs <- all_written (map snd cells); Some (a_pack A outs).

(** memory.rs:193-245 *)
Definition mem_read_stateless (threads : nat) (order : list task) (m : memory ct)
    (addr : list pb) (offset : nat) : option (memory ct * fu) :=
  assert (nonempty m); assert (negb (m_state m));
  do cells <- region threads order
    (fun _ c => do r <- ba_read_stateless (fst c) addr offset; Some (fst c, Some r)) (with_out m);
  do res <- pack_out cells;
  Some (Memory (map fst cells) (m_size m) (m_bits m) false, res).

(** memory.rs:247-306 *)
Definition mem_read_statefull (threads : nat) (order : list task) (m : memory ct)
    (addr : list pb) (offset : nat) : option (memory ct * fu) :=
  assert (nonempty m); assert (negb (m_state m));
  do cells <- region threads order
    (fun _ c => do (b, r) <- ba_read_statefull (fst c) addr offset; Some (b, Some r)) (with_out m);
  do res <- pack_out cells;
  Some (Memory (map fst cells) (m_size m) (m_bits m) true, res).

(** memory.rs:308-371 *)
Definition mem_read_statefull_rev (threads : nat) (order : list task) (m : memory ct)
    (w : fu) (addr : list pb) (offset : nat) : option (memory ct) :=
  assert (m_state m); assert (nonempty m);
  do bs <- region threads order (fun i b => ba_read_statefull_rev b (a_bit A w i) addr offset) (m_planes m);
  Some (Memory bs (m_size m) (m_bits m) false).

(** memory.rs:373-433 *)
Definition mem_write (threads : nat) (order : list task) (m : memory ct)
    (w : fu) (addr : list pb) (offset : nat) : option (memory ct) :=
  assert (negb (m_state m)); assert (nonempty m);
  do bs <- region threads order (fun i b => ba_write b (a_bit A w i) addr offset) (m_planes m);
  Some (Memory bs (m_size m) (m_bits m) false).

(** memory.rs:140-191; no check of [state] *)
Definition mem_zero (threads : nat) (order : list task) (m : memory ct) (addr : nat) : option (memory ct) :=
  assert (nonempty m);
  do bs <- region threads order (fun _ b => ba_zero addr b) (m_planes m);
  Some (Memory bs (m_size m) (m_bits m) (m_state m)).
End Mem.

(** ** encryption and decryption (client side, ideal functionality) *)
Section Client.
Variable log : nat.

(** [data.chunks(n).zip(self.data)], each chunk zero-padded to a polynomial;
    ciphertexts without a chunk keep their content (memory.rs:457-483). *)
Definition pad (chunk : list Z) : poly := firstn (ring log) (chunk ++ zero_poly log).
Fixpoint zip_over {X Y} (f : X -> Y -> Y) (xs : list X) (ys : list Y) : list Y :=
  match xs, ys with
  | x :: xs', y :: ys' => f x y :: zip_over f xs' ys'
  | _, _ => ys
  end.
Definition ba_encrypt (b : bitarray poly) (data : list Z) : bitarray poly :=
  BitArray (zip_over (fun c _ => pad c) (chunks_of (length data) (ring log) data) (ba_data b)) (ba_bits b).

(** memory.rs:48-75: the length check divides by the number of planes *)
Definition mem_encrypt (m : memory poly) (data : list Z) : option (memory poly) :=
  let planes := length (m_planes m) in
  assert (0 <? planes);
  assert (length data / planes <=? m_size m);
  let bits_of i :=
    zip_over (fun y _ => Z.b2z (Z.testbit y (Z.of_nat i))) data (repeat 0%Z (m_size m)) in
  Some (Memory (map (fun ib => ba_encrypt (snd ib) (bits_of (fst ib)))
                 (combine (seq 0 planes) (m_planes m))) (m_size m) (m_bits m) (m_state m)).

(** memory.rs:486-507: [bits] keeps its content where no ciphertext covers it *)
Definition ba_decrypt (b : bitarray poly) (out : list Z) : list Z :=
  zip_over (fun x _ => x) (concat (ba_data b)) out.
(** memory.rs:78-108: bit [i] of every word set when the decrypted
    coefficient is 1, cleared otherwise; [bits] is reused between planes. *)
Definition put_bit (i : nat) (x : Z) (y : Z) : Z :=
  if (x =? 1)%Z then Z.setbit y (Z.of_nat i) else Z.clearbit y (Z.of_nat i).
Definition mem_decrypt (m : memory poly) (data : list Z) : option (list Z) :=
  let planes := length (m_planes m) in
  assert (0 <? planes);
  assert (length data / planes <=? m_size m);
  Some (snd (fold_left (fun st ib =>
               let bits := ba_decrypt (snd ib) (fst st) in
               (bits, zip_over (put_bit (fst ib)) bits (snd st)))
             (combine (seq 0 planes) (m_planes m)) (repeat 0%Z (m_size m), data))).
End Client.
