(** * Keys of the VM and times of the cycles

    fhevm/src/keys.rs and fhevm/src/measurements.rs. *)
Require Import ZArith List Bool.
Require Import Verif.Word.
Import ListNotations.
Open Scope Z_scope.

(** ** Keys

    A `HashMap<i64, _>` is a list of pairs in which the last entry for a key
    counts.  The keys of the circuit bootstrapping (`bdd_key`) are prepared
    by the library and have no map; not modelled. *)
Section Keys.
Variables secret key prepared : Type.
(** Modelled by a function: `GLWEAutomorphismKey::encrypt_sk` (the sources of
    randomness are left out) and `GLWEAutomorphismKeyPrepared::prepare`. *)
Variable encrypt_key : secret -> Z -> key.
Variable prepare_key : key -> prepared.
(** `GLWEAutomorphismKeyPrepared::alloc_from_infos` *)
Variable blank : prepared.

Fixpoint get {A} (m : list (Z * A)) (k : Z) : option A :=
  match m with
  | [] => None
  | (k', v) :: r => match get r k with Some w => Some w | None => if k =? k' then Some v else None end
  end.

(** keys.rs:71-94; [gal] is `GLWE::trace_galois_elements(module)` *)
Definition alloc_keys (gal : list Z) : list (Z * prepared) := map (fun g => (g, blank)) gal.
(** keys.rs:140-194 *)
Definition encrypt_keys (gal : list Z) (sk : secret) : list (Z * key) := map (fun g => (g, encrypt_key sk g)) gal.
(** keys.rs:98-111; `unwrap` of a missing key panics *)
Fixpoint prepare_keys (self : list (Z * prepared)) (other : list (Z * key)) : option (list (Z * prepared)) :=
  match self with
  | [] => Some []
  | (k, _) :: r =>
      match get other k with
      | None => None
      | Some o => do rest <- prepare_keys r other ; Some ((k, prepare_key o) :: rest)
      end
  end.
End Keys.
Arguments get {A}.

(** ** Times

    A `Duration` is a number of nanoseconds below 2^64 * 10^9; `Sum`
    panics beyond that.  Dividing by a `u32` rounds down, and panics for
    0. *)
Definition max_time : Z := 2 ^ 64 * 1000000000.
Fixpoint sum_times (acc : Z) (ts : list Z) : option Z :=
  match ts with
  | [] => Some acc
  | t :: r => if acc + t <? max_time then sum_times (acc + t) r else None
  end.
(** measurements.rs:8-11, and in the same way 20-248, each for one field of
    the measurements; `len() as u32` drops the upper bits *)
Definition average_time (ts : list Z) : option Z :=
  do s <- sum_times 0 ts ;
  let n := Z.of_nat (length ts) mod 2 ^ 32 in
  if n =? 0 then None else Some (s / n).

(** fhevm/src/interpreter.rs:620-626 and 1432-1434, the end of a cycle: the
    measurement is added, and that of this cycle is looked up to be printed
    (if verbose; indexing panics).  The counter is a `u32`; [wrapping] says
    whether its overflow wraps around or panics. *)
Definition end_cycle {A} (wrapping : bool) (verbose : bool) (m : A) (cycle : Z) (ms : list A) : option (option A * Z * list A) :=
  let ms' := ms ++ [m] in
  do shown <- (if verbose then match nth_error ms' (Z.to_nat cycle) with Some x => Some (Some x) | None => None end else Some None) ;
  if cycle + 1 <? 2 ^ 32 then Some (shown, cycle + 1, ms')
  else if wrapping then Some (shown, 0, ms') else None.
