(** * More operators of the Rust fragment: slices, options and strings

    Used by the file [tools/gen_host.py] writes, beside Rust.v and RustIter.v.
    The meanings are those of the Rust reference and of the standard library's
    documentation; no line of the repository is cited. *)
Require Import ZArith List Bool.
From Verif Require Import Rust RustIter.
Import ListNotations.
Open Scope Z_scope.

(** [&l[a..b]] *)
Definition slice {A} (l : list A) (a b : int USize) : option (list A) :=
  if (val a <=? val b) && (val b <=? Z.of_nat (length l))
  then Some (firstn (Z.to_nat (val b - val a)) (skipn (Z.to_nat (val a)) l)) else None.
(** [it.filter(f).collect()] *)
Fixpoint filter {A} (l : list A) (f : A -> option bool) : option (list A) :=
  match l with
  | [] => Some []
  | x :: r => b <- f x ;; r' <- filter r f ;; Some (if (b : bool) then x :: r' else r')
  end.
(** [l.chunks_exact(n)]: pieces of [n] elements, a shorter rest is left out; [n = 0]
    panics *)
Fixpoint exact_pieces {A} (fuel n : nat) (l : list A) : list (list A) :=
  match fuel with
  | O => []
  | S f => if (length l <? n)%nat then [] else firstn n l :: exact_pieces f n (skipn n l)
  end.
Definition chunks_exact {A} (l : list A) (n : int USize) : option (list (list A)) :=
  if val n =? 0 then None else Some (exact_pieces (length l) (Z.to_nat (val n)) l).

(** [o.map(f)], [o.unwrap_or(d)] *)
Definition map_option {A B} (o : option A) (f : A -> option B) : option (option B) :=
  match o with
  | None => Some None
  | Some x => y <- f x ;; Some (Some y)
  end.
Definition unwrap_or {A} (o : option A) (d : A) : A := match o with Some x => x | None => d end.

(** a string is its bytes *)
Definition str (l : list Z) : list (int U8) := map Int l.
Definition ascii_lower (c : int U8) : int U8 := if (65 <=? val c) && (val c <=? 90) then Int (val c + 32) else c.
Definition eq_ignore_ascii_case (a b : list (int U8)) : bool := eq_list (map ascii_lower a) (map ascii_lower b).
(** [s.parse::<usize>()]: an optional plus sign, then digits, at least one; an error
    if the number is too large *)
Definition number (l : list (int U8)) : Z := fold_left (fun n c => 10 * n + (val c - 48)) l 0.
Definition parse_usize (s : list (int U8)) : option (int USize) :=
  let ds := match s with c :: r => if val c =? 43 then r else s | [] => s end in
  match ds with
  | [] => None
  | _ => if forallb (fun c => (48 <=? val c) && (val c <=? 57)) ds && (number ds <? 2 ^ 64)
         then Some (Int (number ds)) else None
  end.
