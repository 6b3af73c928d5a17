(** * Scratch space of the memory operations

    The memory operations of fhevm/src/memory.rs first compute how many bytes
    of scratch space each thread needs ([.._tmp_bytes]), assert that they are
    there, split the space among the threads, and run.  The library's
    operations panic if the space they are given is too small.  This file
    models the space only: a function takes the number of bytes available and
    is [None] if it panics for lack of space.

    How much space a library operation needs is not in /repo: the amounts
    are parameters ([costs]).  Simplified: all planes and all entries of a
    memory have the same layout; every thread does at least one plane (there
    are 32 planes, and `chunks_mut` makes no empty chunk), and all planes use
    the space in the same way, so one plane is modelled; the alignment of
    pieces taken is ignored. *)
Require Import ZArith List Bool.
Require Import Verif.Word.
Import ListNotations.
Open Scope Z_scope.

Record costs := {
  k_glwe : Z;      (* GLWE::bytes_of_from_infos of an entry of the memory *)
  k_word : Z;      (* the same for the word read or written *)
  k_select : Z;    (* GLWEBlindRetriever::retrieve *)
  k_rotation : Z;  (* glwe_blind_rotation *)
  k_retrieval : Z; (* glwe_blind_retrieval_statefull, .._rev *)
  k_trace : Z;     (* glwe_trace *)
  k_normalize : Z; (* glwe_normalize_inplace *)
  k_rotate : Z;    (* glwe_rotate_inplace *)
  k_bit : Z;       (* get_bit_glwe *)
  k_pack : Z       (* FheUint::pack *) }.

(** `scratch.take_..`: the rest. *)
Definition take (avail n : Z) : option Z := if n <=? avail then Some (avail - n) else None.
(** a library operation that needs [n] bytes; also the operations'
    assertions `scratch.available() >= ..` *)
Definition need (avail n : Z) : option unit := if n <=? avail then Some tt else None.

(** `self.bit_size > module.log_n()` (memory.rs:597, 619, 660, 709, 762, 800) *)
Definition large (log bit_size : Z) : bool := log <? bit_size.

(** memory.rs:542-550 *)
Definition stateless_bytes (c : costs) : Z := Z.max (k_select c) (k_rotation c).
(** memory.rs:585-604 *)
Definition statefull_bytes (c : costs) (log bit_size : Z) : Z :=
  Z.max (k_retrieval c) (if large log bit_size then k_rotation c else 0).
(** memory.rs:640-667 *)
Definition rev_bytes (c : costs) (log bit_size : Z) : Z :=
  Z.max (Z.max (k_trace c + Z.max (k_glwe c) (k_normalize c)) (k_retrieval c))
        (if large log bit_size then k_rotation c else 0).
(** memory.rs:720-738 *)
Definition write_bytes (c : costs) (log bit_size : Z) : Z := rev_bytes c log bit_size.

(** memory.rs:552-583 *)
Definition retrieve_stateless (c : costs) (avail : Z) : option unit :=
  do _ <- need avail (k_select c) ;
  need avail (k_rotation c).
(** memory.rs:606-638 *)
Definition retrieve_statefull (c : costs) (log bit_size avail : Z) : option unit :=
  do _ <- (if large log bit_size then need avail (k_retrieval c) else Some tt) ;
  need avail (k_rotation c).
(** memory.rs:669-718 *)
Definition retrieve_statefull_rev (c : costs) (log bit_size avail : Z) : option unit :=
  do a <- take avail (k_glwe c) ;
  do _ <- need a (k_trace c) ;
  do _ <- need avail (k_normalize c) ;
  do _ <- need avail (k_rotation c) ;
  if large log bit_size then need avail (k_retrieval c) else Some tt.
(** memory.rs:740-809 *)
Definition write_plane (c : costs) (log bit_size avail : Z) : option unit :=
  do _ <- (if large log bit_size then need avail (k_retrieval c) else Some tt) ;
  do _ <- need avail (k_rotation c) ;
  do a <- take avail (k_glwe c) ;
  do _ <- need a (k_trace c) ;
  do _ <- need avail (k_normalize c) ;
  do _ <- need avail (k_rotation c) ;
  if large log bit_size then need avail (k_retrieval c) else Some tt.

(** `self.bits.len().div_ceil(threads)` (memory.rs:172, 228, 287, 350, 415)
    panics without threads. *)
Definition chunked (threads : Z) : option unit := if threads =? 0 then None else Some tt.

(** memory.rs:140-191 *)
Definition zero_space (c : costs) (threads avail : Z) : option unit :=
  let size := Z.max (k_rotate c) (k_trace c) + k_glwe c in
  do _ <- need avail (threads * size) ;
  do _ <- chunked threads ;
  do a <- take size (k_glwe c) ;
  do _ <- need a (k_rotate c) ;
  do _ <- need a (k_trace c) ;
  need a (k_rotate c).
(** memory.rs:193-245 *)
Definition read_stateless_space (c : costs) (threads avail : Z) : option unit :=
  do a <- take avail (32 * k_word c) ;
  let size := stateless_bytes c in
  do _ <- need a (threads * size) ;
  do _ <- chunked threads ;
  do _ <- retrieve_stateless c size ;
  need a (k_pack c).
(** memory.rs:247-306 *)
Definition read_statefull_space (c : costs) (log bit_size threads avail : Z) : option unit :=
  do a <- take avail (32 * k_word c) ;
  let size := statefull_bytes c log bit_size in
  do _ <- need a (threads * size) ;
  do _ <- chunked threads ;
  do _ <- retrieve_statefull c log bit_size size ;
  need a (k_pack c).
(** memory.rs:308-371 *)
Definition read_statefull_rev_space (c : costs) (log bit_size threads avail : Z) : option unit :=
  let size := rev_bytes c log bit_size + k_word c in
  do _ <- need avail (threads * size) ;
  do _ <- chunked threads ;
  do a <- take size (k_word c) ;
  do _ <- need a (k_bit c) ;
  retrieve_statefull_rev c log bit_size a.
(** memory.rs:373-433 *)
Definition write_space (c : costs) (log bit_size threads avail : Z) : option unit :=
  let size := write_bytes c log bit_size + k_word c in
  do _ <- need avail (threads * size) ;
  do _ <- chunked threads ;
  do a <- take size (k_word c) ;
  do _ <- need a (k_bit c) ;
  write_plane c log bit_size a.
