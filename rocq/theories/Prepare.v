(** * Preparing several encrypted integers at once

    Model of fhevm/src/prepare.rs over the library signature [alg]. *)
Require Import ZArith List Bool.
Require Import Verif.Word Verif.Glwe Verif.Par.
Import ListNotations.
Open Scope nat_scope.

(** prepare.rs:80-85: 0 followed by the running sums of the bit counts *)
Fixpoint sums_from (s : nat) (counts : list nat) : list nat :=
  match counts with
  | [] => []
  | c :: r => (s + c) :: sums_from (s + c) r
  end.
Definition running_sums (counts : list nat) : list nat := 0 :: sums_from 0 counts.

(** prepare.rs:102-105: the [while] loop; indexing beyond the sums panics. *)
Fixpoint find_comp (fuel : nat) (sums : list nat) (cnt q : nat) : option nat :=
  match fuel with
  | O => None
  | S f =>
      do s <- nth_error sums (S cnt);
      if s <=? q then find_comp f sums (S cnt) q else Some cnt
  end.

Section Prep.
Context {ct pb fu : Type} (A : alg ct pb fu).

(** prepare.rs:101-117: the prepared bit for destination [q] *)
Definition prep_task (bits : list fu) (sums : list nat) (q : nat) : option pb :=
  do cnt <- find_comp (length sums) sums 0 q;
  do w <- nth_error bits cnt;
  do s <- nth_error sums cnt;
  Some (a_boot A w (q - s)).

(** prepare.rs:122-126: the bits beyond the count of each component are
    zeroed; [cells] are the components' leading bits, in order. *)
Fixpoint scatter_bits (counts : list nat) (cells : list pb) : list (list pb) :=
  match counts with
  | [] => []
  | c :: r => (firstn c cells ++ repeat (a_pzero A) (32 - c)) :: scatter_bits r (skipn c cells)
  end.

(** prepare.rs:41-127 for [T = u32] and one destination per bit count (the
    calls at interpreter.rs:742-773 and 946-956).  [res] is the previous
    content of the destinations; [get_bits(0, count)] panics for a count
    above 32, [combined_res[0]] when there is no bit at all. *)
Definition prepare_multiple (threads : nat) (order : list task) (res : list (list pb))
    (bits : list fu) (counts : list nat) : option (list (list pb)) :=
  assert (length res =? length counts); assert (forallb (fun c => c <=? 32) counts);
  let combined := concat (map (fun rc => firstn (snd rc) (fst rc)) (combine res counts)) in
  assert (0 <? length combined);
  let total := list_sum counts in
  do _ <- tasks_of threads (chunk_size threads total) (length combined);
  do cells <- run_tasks (fun q _ => prep_task bits (running_sums counts) q) order combined;
  Some (scatter_bits counts cells).

(** [FheUintPrepared::prepare_custom]: the low [count] bits, the rest zero
    (library; called at interpreter.rs:539-547, 1032-1040, 1169-1177, 1316-1324). *)
Definition prepare_custom (w : fu) (count : nat) : list pb :=
  map (fun i => if i <? count then a_boot A w i else a_pzero A) (seq 0 32).
End Prep.
