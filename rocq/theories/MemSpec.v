(** * Specification of encrypted memory *)
Require Import ZArith List Bool.
Require Import Verif.Word Verif.Glwe Verif.Par Verif.EncMem.
Import ListNotations.
Open Scope Z_scope.

Definition is_word (w : Z) : Prop := 0 <= w < 4294967296.

(** [m] holds the words [ws]: plane [i] has bit [i] of word [a] as coefficient
    [a mod N] of its polynomial [a / N], and zero in the unused places.
    [st] tells whether a write-back is pending. *)
Definition coef (log : nat) (b : bitarray poly) (a : nat) : Z :=
  nth (a mod ring log) (nth (a / ring log) (ba_data b) []) 0.
Definition plane_shape (log size : nat) (b : bitarray poly) : Prop :=
  bit_len_pred (Z.of_nat size) = Some (ba_bits b) /\
  div_ceil size (ring log) = Some (length (ba_data b)) /\
  Forall (fun p : poly => length p = ring log) (ba_data b).
Definition holds (log : nat) (m : memory poly) (ws : list Z) : Prop :=
  m_size m = length ws /\ bit_len_pred (Z.of_nat (length ws)) = Some (m_bits m) /\
  m_state m = false /\ Forall is_word ws /\
  length (m_planes m) = 32%nat /\
  forall i b, nth_error (m_planes m) i = Some b ->
    plane_shape log (length ws) b /\
    forall a, (a < ring log * length (ba_data b))%nat ->
      coef log b a = Z.b2z (Z.testbit (nth a ws 0) (Z.of_nat i)).

(** An encrypted integer is a correct encryption of the word [w]. *)
Definition enc_of (c : list Z) (w : Z) : Prop :=
  is_word w /\ length c = 32%nat /\
  forall i, (i < 32)%nat -> nth i c 0 = Z.b2z (Z.testbit w (Z.of_nat i)).
(** The address bits [offset, offset + k) hold the number [a]. *)
Definition addresses (addr : list bool) (offset k a : nat) : Prop :=
  (offset + k <= length addr)%nat /\ (a < 2 ^ k)%nat /\
  forall i, (i < k)%nat -> nth (offset + i) addr false = Nat.testbit a i.

(** array update *)
Definition put_word (ws : list Z) (a : nat) (w : Z) : list Z :=
  firstn a ws ++ w :: skipn (S a) ws.

(** ** Sequences of operations *)

(** calls on one memory object; each is given a thread count and the order in
    which the worker threads' tasks happen to run *)
Inductive mem_op :=
| Read (addr : list bool) (offset : nat)
| ReadKeep (addr : list bool) (offset : nat)
| WriteBack (w : list Z) (addr : list bool) (offset : nat)
| Write (w : list Z) (addr : list bool) (offset : nat)
| Clear (a : nat).
Record call := Call { c_threads : nat; c_order : list task; c_op : mem_op }.
Definition mem_call (log : nat) (m : memory poly) (c : call) : option (memory poly * list (list Z)) :=
  let t := c_threads c in let s := c_order c in
  match c_op c with
  | Read addr o => do (m', r) <- mem_read_stateless (Ideal log) t s m addr o; Some (m', [r])
  | ReadKeep addr o => do (m', r) <- mem_read_statefull (Ideal log) t s m addr o; Some (m', [r])
  | WriteBack w addr o => do m' <- mem_read_statefull_rev (Ideal log) t s m w addr o; Some (m', [])
  | Write w addr o => do m' <- mem_write (Ideal log) t s m w addr o; Some (m', [])
  | Clear a => do m' <- mem_zero (Ideal log) t s m a; Some (m', [])
  end.
Fixpoint mem_calls (log : nat) (m : memory poly) (cs : list call) : option (memory poly * list (list Z)) :=
  match cs with
  | [] => Some (m, [])
  | c :: r =>
      do (m1, o1) <- mem_call log m c;
      do (m2, o2) <- mem_calls log m1 r;
      Some (m2, o1 ++ o2)
  end.

(** what a client wants: operations on an array of words *)
Inductive arr_op := AGet (a : nat) | ASwap (a : nat) (v : Z) | APut (a : nat) (v : Z).
Definition arr_step (ws : list Z) (o : arr_op) : list Z * list Z :=
  match o with
  | AGet a => (ws, [nth a ws 0])
  | ASwap a v => (put_word ws a v, [nth a ws 0])
  | APut a v => (put_word ws a v, [])
  end.
Fixpoint arr_run (ws : list Z) (os : list arr_op) : list Z * list Z :=
  match os with
  | [] => (ws, [])
  | o :: r =>
      let (ws1, o1) := arr_step ws o in
      let (ws2, o2) := arr_run ws1 r in
      (ws2, o1 ++ o2)
  end.
(** the calls that carry out an array operation on a memory of [size] words
    with [k] address bits *)
Inductive realises (size k : nat) : arr_op -> list call -> Prop :=
| R_get a t s addr o : par_order t 32 s -> addresses addr o k a ->
    realises size k (AGet a) [Call t s (Read addr o)]
| R_swap a v w t1 s1 t2 s2 addr o : par_order t1 32 s1 -> par_order t2 32 s2 ->
    addresses addr o k a -> (a < size)%nat -> enc_of w v ->
    realises size k (ASwap a v) [Call t1 s1 (ReadKeep addr o); Call t2 s2 (WriteBack w addr o)]
| R_put a v w t s addr o : par_order t 32 s ->
    addresses addr o k a -> (a < size)%nat -> enc_of w v ->
    realises size k (APut a v) [Call t s (Write w addr o)].

(** the protocol: a write-back must follow a keeping read, nothing else may
    come between; clearing a word is outside the protocol *)
Fixpoint protocol (pending : bool) (os : list mem_op) : option bool :=
  match os with
  | [] => Some pending
  | o :: r =>
      match o, pending with
      | Read _ _, false | Write _ _ _, false => protocol false r
      | ReadKeep _ _, false => protocol true r
      | WriteBack _ _ _, true => protocol false r
      | Clear _, p => protocol p r
      | _, _ => None
      end
  end.
