(** * Parallel regions

    [thread::scope] regions of memory.rs and prepare.rs: the cells are cut
    into chunks, one thread per chunk, each thread walks its chunk in order.
    Chunks are disjoint, so a thread's accesses to its own cells are atomic
    steps and the threads interleave arbitrarily. *)
Require Import ZArith List Bool.
Require Import Verif.Word.
Import ListNotations.

(** [xs.chunks_mut(c)]; panics for [c = 0]. *)
Fixpoint chunks_of {A} (fuel c : nat) (xs : list A) : list (list A) :=
  match fuel with
  | O => []
  | S f => match xs with [] => [] | _ => firstn c xs :: chunks_of f c (skipn c xs) end
  end.
Definition chunk_size (threads len : nat) : nat := (len + threads - 1) / threads.

(** a task: the cell it works on (its place in the chunk walk) and the index
    [chunk_size * idx + i] the code computes for it (memory.rs:362,427;
    prepare.rs:93,103). *)
Definition task := (nat * nat)%type.
Fixpoint number (f : nat -> nat -> nat) (idx : nat) (cs : list (list nat)) : list (list task) :=
  match cs with
  | [] => []
  | c :: r => map (fun ix => (snd ix, f idx (fst ix))) (combine (seq 0 (length c)) c) :: number f (S idx) r
  end.
(** the task list of every thread: [scratches] (one per thread) zipped with
    the chunks of size [c], so chunks beyond the thread count are never visited
    (memory.rs:172-176, 228-235, 287-294, 350-357, 415-422; prepare.rs:73-92).
    [None]: [div_ceil(0)], or chunk size 0. *)
Definition tasks_of (threads c len : nat) : option (list (list task)) :=
  assert (0 <? threads)%nat;
  assert (0 <? c)%nat;
  Some (firstn threads (number (fun idx i => c * idx + i)%nat 0 (chunks_of len c (seq 0 len)))).
Definition thread_tasks (threads len : nat) : option (list (list task)) :=
  tasks_of threads (chunk_size threads len) len.

(** any interleaving of the threads *)
Inductive interleave {T} : list (list T) -> list T -> Prop :=
| il_done : forall ls, Forall (fun l => l = []) ls -> interleave ls []
| il_step : forall pre x r post s,
    interleave (pre ++ r :: post) s -> interleave (pre ++ (x :: r) :: post) (x :: s).

(** run the tasks in a given order: the task for cell [p] with index [q]
    replaces the cell by [g q cell]; [None] is a panic in some thread. *)
Fixpoint run_tasks {A} (g : nat -> A -> option A) (order : list task) (cells : list A) : option (list A) :=
  match order with
  | [] => Some cells
  | (p, q) :: r =>
      do x <- nth_error cells p; do y <- g q x; do c <- set_nth cells p y; run_tasks g r c
  end.
