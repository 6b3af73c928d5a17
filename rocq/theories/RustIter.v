(** * More operators of the Rust fragment: iterators and integer methods

    Used by the files [tools/gen_lib.py] writes, beside Rust.v.  The meanings
    are those of the Rust reference and of the standard library's documentation;
    no line of the repository is cited. *)
Require Import ZArith List Bool.
From Verif Require Import Rust.
Import ListNotations.
Open Scope Z_scope.

Definition max {t} (a b : int t) : int t := Int (Z.max (val a) (val b)).
Definition min {t} (a b : int t) : int t := Int (Z.min (val a) (val b)).
(** [a.div_ceil(b)] of unsigned numbers; a zero divisor panics *)
Definition div_ceil {t} (a b : int t) : option (int t) :=
  if val b =? 0 then None
  else Some (Int (if val a mod val b =? 0 then val a / val b else val a / val b + 1)).
(** [a.leading_zeros()] of an unsigned number *)
Definition leading_zeros {t} (a : int t) : int U32 :=
  Int (bits t - (if val a =? 0 then 0 else Z.log2 (val a) + 1)).
(** [l.fill(x)] *)
Definition fill {A} (l : list A) (x : A) : list A := map (fun _ => x) l.

(** [l.chunks(n)]: pieces of [n] elements, the last one may be shorter; [n = 0]
    panics *)
Fixpoint pieces {A} (fuel n : nat) (l : list A) : list (list A) :=
  match fuel with
  | O => []
  | S f => match l with [] => [] | _ => firstn n l :: pieces f n (skipn n l) end
  end.
Definition chunks {A} (l : list A) (n : int USize) : option (list (list A)) :=
  if val n =? 0 then None else Some (pieces (length l) (Z.to_nat (val n)) l).
(** [it.enumerate()] *)
Definition enumerate {A} (l : list A) : list (int USize * A) := combine (counting (length l) 0) l.

(** [for x in l.iter_mut() { body }]: the body gives the new element *)
Fixpoint for_mut {A S} (l : list A) (body : A -> S -> option (A * S)) (s : S) : option (list A * S) :=
  match l with
  | [] => Some ([], s)
  | x :: r =>
      '(x', s') <- body x s ;;
      '(r', s'') <- for_mut r body s' ;;
      Some (x' :: r', s'')
  end.
(** the elements an iterator reached are the first of the list it borrowed *)
Definition write_back {A} (old new : list A) : list A := new ++ skipn (length new) old.

(** [(a..b).map(f).collect()] *)
Fixpoint collect {A B} (l : list A) (f : A -> option B) : option (list B) :=
  match l with
  | [] => Some []
  | x :: r => y <- f x ;; ys <- collect r f ;; Some (y :: ys)
  end.
Definition collect_range {t B} (a b : int t) (f : int t -> option B) : option (list B) :=
  collect (counting (Z.to_nat (val b - val a)) (val a)) f.

(** [a == b] of vectors of numbers *)
Fixpoint eq_list {t} (a b : list (int t)) : bool :=
  match a, b with
  | [], [] => true
  | x :: a', y :: b' => eq x y && eq_list a' b'
  | _, _ => false
  end.
(** [it.find(f)]: the first element for which f holds *)
Fixpoint find {A} (l : list A) (f : A -> option bool) : option (option A) :=
  match l with
  | [] => Some None
  | x :: r => b <- f x ;; if b then Some (Some x) else find r f
  end.
(** [it.sum()] *)
Definition sum {t} (p : profile) (l : list (int t)) : option (int t) :=
  for_each l (fun x s => add p s x) (Int 0).
(** [it.scan(s, f)]: f changes the state and may end the iteration *)
Fixpoint scan {A B S} (l : list A) (s : S) (f : S -> A -> option (S * option B)) : option (list B) :=
  match l with
  | [] => Some []
  | x :: r =>
      '(s', y) <- f s x ;;
      match y with
      | None => Some []
      | Some y => ys <- scan r s' f ;; Some (y :: ys)
      end
  end.
(** the concatenation [new] of pieces as long as those of [views], taken apart *)
Fixpoint regroup {A B} (views : list (list A)) (new : list B) : list (list B) :=
  match views with
  | [] => []
  | v :: r => firstn (length v) new :: regroup r (skipn (length v) new)
  end.
