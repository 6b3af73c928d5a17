(** * What a generated module means (specification)

    A reader of the constants of a Rust module, for the three types that occur.
    It knows the syntax and the rules of the language (a literal is in the range
    of its suffix, an array has the length of its type, names are not declared
    twice) and nothing of the generator. *)
Require Import ZArith List Bool String.
Require Import Verif.DisplaySpec Verif.GenCode.
Import ListNotations.
Open Scope Z_scope.

Inductive value_of := Num (n : Z) | Bytes (bs : list Z) | Slices (xs : list (list Z)).

(** ** literals *)
Definition list_eqb (a b : list Z) : bool := if list_eq_dec Z.eq_dec a b then true else false.
Definition read_digits (s : list Z) : option Z :=
  match s with
  | [] => None
  | _ => if forallb (fun c => (48 <=? c) && (c <=? 57)) s then Some (value 10 s) else None
  end.
Definition read_lit (suffix : list Z) (bound : Z) (t : tok) : option Z :=
  match t with
  | Lit s =>
      let k := (List.length s - List.length suffix)%nat in
      if list_eqb (skipn k s) suffix then
        match read_digits (firstn k s) with
        | Some v => if v <? bound then Some v else None
        | None => None
        end
      else None
  | _ => None
  end.
Definition read_usize := read_lit [117; 115; 105; 122; 101] (2 ^ 64).
Definition read_u8 := read_lit [117; 56] 256.

(** ** expressions *)
Definition is_punct (p : string) (t : tok) : bool := match t with Pt s => String.eqb s p | _ => false end.
(** the parts between separators; nothing has no parts *)
Fixpoint split_on (p : string) (ts : list tok) : list (list tok) :=
  match ts with
  | [] => [[]]
  | t :: r =>
      if is_punct p t then [] :: split_on p r
      else match split_on p r with x :: xs => (t :: x) :: xs | [] => [[t]] end
  end.
Definition parts (ts : list tok) : list (list tok) := match ts with [] => [] | _ => split_on "," ts end.
Fixpoint traverse {A B} (f : A -> option B) (xs : list A) : option (list B) :=
  match xs with
  | [] => Some []
  | x :: r => match f x, traverse f r with Some y, Some ys => Some (y :: ys) | _, _ => None end
  end.
Definition read_array (t : tok) : option (list Z) :=
  match t with
  | Grp b ts =>
      if String.eqb b "[" then traverse (fun x => match x with [l] => read_u8 l | _ => None end) (parts ts) else None
  | _ => None
  end.
(** `&( .. )` *)
Definition read_slice (ts : list tok) : option (list Z) :=
  match ts with
  | [a; Grp b [t]] => if is_punct "&" a && String.eqb b "(" then read_array t else None
  | _ => None
  end.

(** ** constants: `usize`, `[u8; n]`, `&[&[u8]]` *)
Definition read_value (ty val : list tok) : option value_of :=
  match ty, val with
  | [Id s], [l] => if String.eqb s "usize" then option_map Num (read_usize l) else None
  | [Grp b [Id s; p; n]], [t] =>
      if String.eqb b "[" && String.eqb s "u8" && is_punct ";" p then
        match read_usize n, read_array t with
        | Some n, Some bs => if n =? Z.of_nat (List.length bs) then Some (Bytes bs) else None
        | _, _ => None
        end
      else None
  | [a; Grp b [a'; Grp b' [Id s]]], [c; Grp d ts] =>
      if is_punct "&" a && String.eqb b "[" && is_punct "&" a' && String.eqb b' "[" && String.eqb s "u8" && is_punct "&" c && String.eqb d "["
      then option_map Slices (traverse read_slice (parts ts)) else None
  | _, _ => None
  end.

(** the tokens before the first [p], and those behind *)
Fixpoint before (p : string) (ts : list tok) : option (list tok * list tok) :=
  match ts with
  | [] => None
  | t :: r => if is_punct p t then Some ([], r) else match before p r with Some (a, b) => Some (t :: a, b) | None => None end
  end.
(** the constants up to the first item that is none, and the rest *)
Fixpoint read_consts (fuel : nat) (ts : list tok) : option (list (string * value_of) * list tok) :=
  match fuel with
  | O => None
  | S f =>
      match ts with
      | Id a :: Id b :: Id name :: c :: r =>
          if String.eqb a "pub" && String.eqb b "const" && is_punct ":" c then
            match before "=" r with
            | Some (ty, r) =>
                match before ";" r with
                | Some (val, r) =>
                    match read_value ty val, read_consts f r with
                    | Some v, Some (cs, rest) => Some ((name, v) :: cs, rest)
                    | _, _ => None
                    end
                | None => None
                end
            | None => None
            end
          else Some ([], ts)
      | _ => Some ([], ts)
      end
  end.
Definition constants (ts : list tok) : option (list (string * value_of) * list tok) := read_consts (S (List.length ts)) ts.

(** what a user of the module sees under a name *)
Fixpoint lookup (name : string) (cs : list (string * value_of)) : option value_of :=
  match cs with
  | [] => None
  | (n, v) :: r => if String.eqb n name then Some v else lookup name r
  end.

(** ** functions: `pub fn NAME() -> Vec<(&'static [u8], &'static [u8])> { A.iter().zip(B.iter()).map(|(&x, &y)| (u, v)).collect() }` *)
Definition toks_eqb_with (eqb : tok -> tok -> bool) : list tok -> list tok -> bool :=
  fix go (a b : list tok) : bool :=
    match a, b with [], [] => true | x :: a, y :: b => eqb x y && go a b | _, _ => false end.
Fixpoint tok_eqb (a b : tok) : bool :=
  match a, b with
  | Id s, Id t | Pt s, Pt t => String.eqb s t
  | Lit s, Lit t => list_eqb s t
  | Grp s x, Grp t y => String.eqb s t && toks_eqb_with tok_eqb x y
  | _, _ => false
  end.
Definition toks_eqb := toks_eqb_with tok_eqb.
Definition iter (a : string) : list tok := [Id a; Pt "."; Id "iter"; Grp "(" []].
Definition chain (a b x y u v : string) : list tok :=
  iter a ++ [Pt "."; Id "zip"; Grp "(" (iter b);
             Pt "."; Id "map"; Grp "(" [Pt "|"; Grp "(" [Pt "&"; Id x; Pt ","; Pt "&"; Id y]; Pt "|"; Grp "(" [Id u; Pt ","; Id v]];
             Pt "."; Id "collect"; Grp "(" []].
Definition static_bytes : list tok := [Pt "&"; Id "'static"; Grp "[" [Id "u8"]].
Definition signature (name : string) : list tok :=
  [Id "pub"; Id "fn"; Id name; Grp "(" []; Pt "->"; Id "Vec"; Pt "<"; Grp "(" (static_bytes ++ Pt "," :: static_bytes); Pt ">"].
(** a variable of the closure stands for a component of the pair *)
Definition component (x y n : string) (c : list Z * list Z) : option (list Z) :=
  if String.eqb n x then Some (fst c) else if String.eqb n y then Some (snd c) else None.
(** what a call of the function [name], the last item of the module, gives *)
Definition call (name : string) (cs : list (string * value_of)) (rest : list tok) : option (list (list Z * list Z)) :=
  match skipn 9 rest with
  | [Grp _ body] =>
      match body with
      | Id a :: _ :: _ :: _ :: _ :: _ :: Grp _ (Id b :: _) :: _ :: _
          :: Grp _ [_; Grp _ [_; Id x; _; _; Id y]; _; Grp _ [Id u; _; Id v]] :: _ =>
          if toks_eqb rest (signature name ++ [Grp "{" (chain a b x y u v)]) && negb (String.eqb x y) then
            match lookup a cs, lookup b cs with
            | Some (Slices i), Some (Slices o) =>
                traverse (fun c => match component x y u c, component x y v c with Some p, Some q => Some (p, q) | _, _ => None end) (combine i o)
            | _, _ => None
            end
          else None
      | _ => None
      end
  | _ => None
  end.
