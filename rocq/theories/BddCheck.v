(** * A verified checker for the generated circuits

    Nothing here models the code: this is proof machinery.  [check] walks one
    output bit of a circuit from the output slot to the constants, carrying
    for each reachable slot what the selectors on the way say about the
    inputs.  Its soundness is proved in BddFacts.v. *)
Require Import ZArith NArith List Bool.
Require Import Verif.Bdd.
Import ListNotations.
Open Scope N_scope.

(** structural check: every node reads slots the previous level has written,
    and selects on a declared input.  [prev] says which slots are written. *)
Definition written (prev : list bool) (j : N) : bool := nth (N.to_nat j) prev false.
Fixpoint sound_level (nin : N) (prev : list bool) (j : nat) (lv : list node) : bool :=
  match lv with
  | [] => true
  | n :: r =>
      (match n with
       | C s h l => (s <? nin) && written prev h && written prev l
       | P => written prev (N.of_nat j)
       | E => true
       end) && sound_level nin prev (S j) r
  end.
Definition writes (n : node) : bool := match n with E => false | _ => true end.
Fixpoint sound_levels (nin : N) (prev : list bool) (ls : list (list node)) : bool :=
  match ls with
  | [] => written prev 0
  | lv :: r => sound_level nin prev 0 lv && sound_levels nin (map writes lv) r
  end.
Definition sound_bit (nin : N) (c : bit_circuit) : bool :=
  match c with
  | BC O nodes => match nodes with [] => true | _ => false end
  | BC w nodes =>
      (length nodes mod w =? 0)%nat
      && sound_levels nin (firstn w (true :: true :: repeat false w)) (levels w nodes)
  end.

(** a sum of two operands and a constant; an operand bit is an input or 0. *)
Record sumspec := {
  va : N -> option N;
  vb : N -> option N;
  kc : Z;
  vs : option N;   (* the input repeated as sign bit of the second operand *)
  tl : N           (* first position of the repeated sign bit *)
}.
Definition from (base : N) (k : N) : option N := Some (base + k).
Definition shifted (base sh : N) (k : N) : option N :=
  if k <? sh then None else Some (base + (k - sh)).
Definition sxt (base n : N) (k : N) : option N :=
  Some (base + (if k <? n then k else n - 1)).
Definition zero (k : N) : option N := None.

Inductive tgt := TLui | TLink | TAuipc | TRam | TNext | TRel | TInd.
Definition spec (t : tgt) : sumspec :=
  match t with
  | TLui => {| va := shifted 0 12; vb := zero; kc := 0; vs := None; tl := 32 |}
  | TLink => {| va := from 0; vb := zero; kc := 4; vs := None; tl := 32 |}
  | TAuipc => {| va := from 0; vb := shifted 32 12; kc := 0; vs := None; tl := 32 |}
  | TRam => {| va := from 0; vb := from 32; kc := 4294705152; vs := None; tl := 32 |}
  | TNext => {| va := from 68; vb := zero; kc := 4; vs := None; tl := 32 |}
  | TRel => {| va := from 68; vb := sxt 100 20; kc := 0; vs := Some 119; tl := 19 |}
  | TInd => {| va := from 4; vb := sxt 100 20; kc := 0; vs := Some 119; tl := 19 |}
  end.

Inductive st :=
| Sum (t : tgt) (k c : N) (a b sg : option bool)
| Cpy (t : tgt)
| Cmp (k : N) (a : option bool)
| Fin (b : bool).

Definition oeqb (x y : option bool) : bool :=
  match x, y with
  | None, None => true | Some a, Some b => Bool.eqb a b | _, _ => false
  end.
Definition tnum (t : tgt) : N :=
  match t with TLui => 0 | TLink => 1 | TAuipc => 2 | TRam => 3 | TNext => 4 | TRel => 5 | TInd => 6 end.
Definition steqb (x y : st) : bool :=
  match x, y with
  | Sum t k c a b g, Sum t' k' c' a' b' g' =>
      (tnum t =? tnum t') && (k =? k') && (c =? c') && oeqb a a' && oeqb b b' && oeqb g g'
  | Cpy t, Cpy t' => tnum t =? tnum t'
  | Cmp k a, Cmp k' a' => (k =? k') && oeqb a a'
  | Fin b, Fin b' => Bool.eqb b b'
  | _, _ => false
  end.

Definition is_var (o : option N) (v : N) : bool :=
  match o with Some x => x =? v | None => false end.
(** what is known of the two operand bits at position [k]. *)
Definition know_a (t : tgt) (k : N) (a : option bool) : option bool :=
  match va (spec t) k with None => Some false | Some _ => a end.
Definition know_b (t : tgt) (k : N) (b sg : option bool) : option bool :=
  match vb (spec t) k with
  | None => Some false
  | Some v => if is_var (vs (spec t)) v then sg else b
  end.
Definition low_of (o : option bool) : N := match o with Some true => 1 | _ => 0 end.
Definition high_of (o : option bool) : N := match o with Some false => 0 | _ => 1 end.
Definition kbit (t : tgt) (k : N) : N := if Z.testbit (kc (spec t)) (Z.of_N k) then 1 else 0.

Definition settle (i : N) (t : tgt) (k c : N) (a b sg : option bool) : st + N :=
  let A := know_a t k a in
  let B := know_b t k b sg in
  let lo := low_of A + low_of B + kbit t k + c in
  let hi := high_of A + high_of B + kbit t k + c in
  if k =? i then
    if lo =? hi then inl (Fin (N.odd lo)) else inl (Sum t k c a b sg)
  else if lo / 2 =? hi / 2 then inr (lo / 2)
  else if (tl (spec t) <=? k) && (lo + 1 =? hi) && (lo =? 1)
          && match A with Some _ => true | None => false end
  then inl (Cpy t)
  else inl (Sum t k c a b sg).
Fixpoint norm (fuel : nat) (i : N) (t : tgt) (k c : N) (a b sg : option bool) : st :=
  match fuel with
  | O => Sum t k c a b sg
  | S f =>
      match settle i t k c a b sg with
      | inl s => s
      | inr c' => norm f i t (k + 1) c' None None sg
      end
  end.
Definition start_sum (i : N) (t : tgt) : st :=
  match t with
  | TInd => if i =? 0 then Fin false else norm 33 i t 0 0 None None None
  | _ => norm 33 i t 0 0 None None None
  end.

(** what the circuit is expected to compute: a fixed sum, or one of two sums
    according to a comparison of the words at inputs 4.. and 36.. *)
Inductive goal :=
| GSum (t : tgt)
| GBranch (signed : bool) (on_lt on_eq on_gt : bool).
Definition side (b : bool) : tgt := if b then TRel else TNext.
Definition start (i : N) (g : goal) : st :=
  match g with GSum t => start_sum i t | GBranch _ _ _ _ => Cmp 32 None end.

(** learn that input [v] is [b]; [None] is a contradiction.  [reset] lists
    inputs whose value is deliberately forgotten together with the state. *)
Definition learn (i : N) (g : goal) (s : st) (v : N) (b : bool) : option st :=
  match s with
  | Fin _ => Some s
  | Cpy t => if is_var (va (spec t) i) v then Some (Fin b) else Some s
  | Sum t k c a bb sg =>
      if is_var (va (spec t) k) v then
        match a with
        | Some a' => if Bool.eqb a' b then Some s else None
        | None => Some (norm 33 i t k c (Some b) bb sg)
        end
      else if is_var (vs (spec t)) v then
        match sg with
        | Some g' => if Bool.eqb g' b then Some s else None
        | None => Some (norm 33 i t k c a bb (Some b))
        end
      else if is_var (vb (spec t) k) v then
        match bb with
        | Some b' => if Bool.eqb b' b then Some s else None
        | None => Some (norm 33 i t k c a (Some b) sg)
        end
      else Some s
  | Cmp k a =>
      match g with
      | GSum _ => Some s
      | GBranch sgn lt eq gt =>
          if v =? 3 + k then
            match a with
            | Some a' => if Bool.eqb a' b then Some s else None
            | None => Some (Cmp k (Some b))
            end
          else if v =? 35 + k then
            match a with
            | None => Some s
            | Some a' =>
                if Bool.eqb a' b then
                  if k =? 1 then Some (start_sum i (side eq)) else Some (Cmp (k - 1) None)
                else
                  let less := xorb b (sgn && (k =? 32)) in
                  Some (start_sum i (side (if less then lt else gt)))
            end
          else Some s
      end
  end.

(** fixed inputs (the operation id) and inputs to forget. *)
Record ctx := { known : list (N * bool); forget_lo : N; forget_hi : N }.
Fixpoint lookup (l : list (N * bool)) (v : N) : option bool :=
  match l with
  | [] => None
  | (x, b) :: r => if x =? v then Some b else lookup r v
  end.
Definition step (x : ctx) (i : N) (g : goal) (s : st) (v : N) (b : bool) : option st :=
  if match lookup (known x) v with Some b' => negb (Bool.eqb b' b) | None => false end then None
  else if (forget_lo x <=? v) && (v <? forget_hi x) then Some (start i g)
  else learn i g s v b.

Definition add (p : N * st) (l : list (N * st)) : list (N * st) :=
  if existsb (fun q => (fst p =? fst q) && steqb (snd p) (snd q)) l then l else p :: l.
Definition addo (j : N) (o : option st) (l : list (N * st)) : list (N * st) :=
  match o with Some s => add (j, s) l | None => l end.
Fixpoint expand (x : ctx) (i : N) (g : goal) (lv : list node) (cur acc : list (N * st))
    : option (list (N * st)) :=
  match cur with
  | [] => Some acc
  | (j, s) :: r =>
      match nth_error lv (N.to_nat j) with
      | Some (C v h l) =>
          expand x i g lv r (addo h (step x i g s v true) (addo l (step x i g s v false) acc))
      | Some P => expand x i g lv r (add (j, s) acc)
      | _ => None
      end
  end.
Definition final (p : N * st) : bool :=
  match p with
  | (j, Fin b) => if b then j =? 1 else j =? 0
  | _ => false
  end.
(** levels are given last first. *)
Fixpoint explore (x : ctx) (i : N) (g : goal) (ls : list (list node)) (cur : list (N * st)) : bool :=
  match ls with
  | [] => forallb final cur
  | lv :: r =>
      match expand x i g lv cur [] with Some nx => explore x i g r nx | None => false end
  end.
Definition check_bit (x : ctx) (g : goal) (i : N) (c : bit_circuit) : bool :=
  match c with
  | BC O _ => match start i g with Fin false => true | _ => false end
  | BC w nodes => explore x i g (rev (levels w nodes)) [(0, start i g)]
  end.
Fixpoint check_from (x : ctx) (g : goal) (i : N) (cs : list bit_circuit) : bool :=
  match cs with
  | [] => i =? 32
  | c :: r => check_bit x g i c && check_from x g (i + 1) r
  end.
Definition check (x : ctx) (g : goal) (c : circuit) : bool :=
  check_from x g 0 (bits_out c) && forallb (sound_bit (input_bits c)) (bits_out c).

(** the operation-id bits as known inputs; JALR paths cross the comparison
    nodes, where the state is forgotten. *)
Definition op_known (op : Z) : list (N * bool) :=
  map (fun v => (v, Z.testbit op (Z.of_N v))) [0; 1; 2; 3].
Definition no_ctx : ctx := {| known := []; forget_lo := 0; forget_hi := 0 |}.
Definition op_ctx (op : Z) : ctx := {| known := op_known op; forget_lo := 0; forget_hi := 0 |}.
Definition jalr_ctx : ctx := {| known := op_known 7; forget_lo := 36; forget_hi := 68 |}.
