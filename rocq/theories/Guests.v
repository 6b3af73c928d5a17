(** * The guest programs shipped with the repository

    compiler-tests/uniswap, compiler-tests/string-match,
    compiler-tests/template and compiler-tests/gen-tests each contain a guest
    (a `no_std` Rust program compiled for riscv32i, release profile) and a
    host program that repeats the guest's computation natively and compares.
    This file models the Rust source of both sides and the [repr(C)] layout
    of the structures they exchange over the input and output tapes.

    Simplified: the guests are modelled at the level of their Rust source,
    not of the machine code rustc would emit.  A panic is [None]; in a guest
    the panic handler is `loop {}`
    (compiler-tests/uniswap/src/guest/src/main.rs:5-8), so that nothing is
    written to the output tape.  The flag [chk] is the compiler's
    `overflow-checks` setting: off in the release profile the guests are
    built with (compiler/src/lib.rs, `--release`), on when a host program is
    run with plain `cargo run`. *)
Require Import ZArith List Bool.
Require Import Verif.Word.
Import ListNotations.
Open Scope Z_scope.

(** ** [repr(C)] structures

    The types used by the tapes' structures; [TUsize] is not used by the
    shipped guests and stands for the pointer-sized integers a guest author
    might reach for. *)
Inductive ty :=
| TBool
| TU8
| TU32
| TUsize
| TArr (n : nat) (t : ty)
| TStruct (fs : list ty).

(** The least multiple of [a] that is not below [p]. *)
Definition round_up (p a : nat) : nat := ((p + (a - 1)) / a * a)%nat.

(** `core::mem::align_of` under [repr(C)]; [w] is the pointer width in bytes
    (4 on riscv32, 8 on the host).
    (uniswap/src/guest/src/main.rs:13-44, src/main.rs:12-48). *)
Fixpoint align (w : nat) (t : ty) : nat :=
  match t with
  | TBool | TU8 => 1
  | TU32 => 4
  | TUsize => w
  | TArr _ t' => align w t'
  | TStruct fs =>
      (fix go (l : list ty) : nat :=
         match l with
         | [] => 1%nat
         | f :: r => Nat.max (align w f) (go r)
         end) fs
  end.

(** `core::mem::size_of` under [repr(C)]: each field at the next multiple of
    its alignment, and the whole padded to a multiple of the structure's
    alignment.  (The length of INPUT and OUTPUT:
    uniswap/src/guest/src/main.rs:48,53.) *)
Fixpoint size (w : nat) (t : ty) : nat :=
  match t with
  | TBool | TU8 => 1
  | TU32 => 4
  | TUsize => w
  | TArr n t' => (n * size w t')%nat
  | TStruct fs =>
      round_up
        ((fix go (pos : nat) (l : list ty) : nat :=
            match l with
            | [] => pos
            | f :: r => go (round_up pos (align w f) + size w f)%nat r
            end) 0%nat fs)
        (align w (TStruct fs))
  end.

(** Values of those types. *)
Inductive value :=
| VInt (z : Z)
| VSeq (vs : list value).

(** Little-endian bytes of an integer. *)
Fixpoint le (n : nat) (z : Z) : list Z :=
  match n with
  | O => []
  | S n' => z mod 256 :: le n' (z / 256)
  end.
Fixpoint unle (l : list Z) : Z :=
  match l with
  | [] => 0
  | b :: r => b + 256 * unle r
  end.

(** Bytes whose contents Rust leaves unspecified: whatever [pad] says. *)
Definition padding (pad : nat -> Z) (from upto : nat) : list Z :=
  map pad (seq from (upto - from)).

(** `to_u8_slice(&input)`: the bytes of a value in memory, the value starting
    at position [p] (uniswap/src/main.rs:77; `to_u8_slice` is
    `slice::from_raw_parts(&v as *const T as *const u8, size_of::<T>())`). *)
Fixpoint encode (w : nat) (pad : nat -> Z) (p : nat) (t : ty) (v : value) : list Z :=
  match t, v with
  | TBool, VInt z | TU8, VInt z => le 1 z
  | TU32, VInt z => le 4 z
  | TUsize, VInt z => le w z
  | TArr _ t', VSeq vs =>
      (fix go (q : nat) (l : list value) : list Z :=
         match l with
         | [] => []
         | x :: r => encode w pad q t' x ++ go (q + size w t')%nat r
         end) p vs
  | TStruct fs, VSeq vs =>
      (fix go (pos : nat) (l : list ty) (xs : list value) : list Z :=
         match l, xs with
         | f :: r, x :: ys =>
             let q := round_up pos (align w f) in
             padding pad (p + pos) (p + q)
             ++ encode w pad (p + q) f x
             ++ go (q + size w f)%nat r ys
         | _, _ => padding pad (p + pos) (p + size w (TStruct fs))
         end) 0%nat fs vs
  | _, _ => []
  end.

(** `read_volatile(&INPUT as *const u8 as *const Input)`
    (uniswap/src/guest/src/main.rs:58-59) and `from_u8_slice`
    (uniswap/src/main.rs:112): the fields found at their offsets.  [None]: a
    [bool] byte other than 0 or 1 (undefined behaviour in Rust), or too few
    bytes. *)
Fixpoint decode (w : nat) (t : ty) (l : list Z) : option value :=
  let int (n : nat) :=
    if Nat.ltb (length l) n then None else Some (VInt (unle (firstn n l))) in
  match t with
  | TBool =>
      match l with
      | b :: _ => if (b =? 0) || (b =? 1) then Some (VInt b) else None
      | [] => None
      end
  | TU8 => int 1%nat
  | TU32 => int 4%nat
  | TUsize => int w
  | TArr n t' =>
      option_map VSeq
        ((fix go (k : nat) (m : list Z) : option (list value) :=
            match k with
            | O => Some []
            | S k' =>
                match decode w t' m, go k' (skipn (size w t') m) with
                | Some x, Some r => Some (x :: r)
                | _, _ => None
                end
            end) n l)
  | TStruct fs =>
      option_map VSeq
        ((fix go (pos : nat) (gs : list ty) : option (list value) :=
            match gs with
            | [] => Some []
            | f :: r =>
                let q := round_up pos (align w f) in
                match decode w f (skipn q l), go (q + size w f)%nat r with
                | Some x, Some xs => Some (x :: xs)
                | _, _ => None
                end
            end) 0%nat fs)
  end.

(** ** Arithmetic of Rust's operators under the [overflow-checks] setting *)
Definition r_add (chk : bool) (a b : Z) : option Z :=
  if chk && (4294967296 <=? a + b) then None else Some (wadd a b).
Definition r_sub (chk : bool) (a b : Z) : option Z :=
  if chk && (a <? b) then None else Some (wsub a b).
Definition r_mul (chk : bool) (a b : Z) : option Z :=
  if chk && (4294967296 <=? a * b) then None else Some (wmul a b).
(** Division panics on zero under every profile. *)
Definition r_div (a b : Z) : option Z := if b =? 0 then None else Some (a / b).

(** ** uniswap *)

(** uniswap/src/guest/src/main.rs:13-44 *)
Record pool := mkPool { t0 : Z; t1 : Z }.
Record trade := mkTrade { amount : Z; direction : bool }.
Record account := mkAccount { t0_balance : Z; t1_balance : Z }.

Definition pool_ty := TStruct [TU32; TU32].
Definition trade_ty := TStruct [TU32; TBool].
Definition account_ty := TStruct [TU32; TU32].
Definition swap_input_ty := TStruct [pool_ty; trade_ty; account_ty].
Definition swap_output_ty := TStruct [pool_ty; account_ty].

(** uniswap/src/guest/src/main.rs:65-93.  [asserts] is whether the balance
    assertion of lines 68 and 81 is present: it is in the guest, and not in
    the host's recomputation (uniswap/src/main.rs:91-110). *)
Definition swap (asserts chk : bool) (p : pool) (t : trade) (a : account)
  : option (pool * account) :=
  let k := wmul (t0 p) (t1 p) in
  if direction t then
    if asserts && negb (amount t <=? t0_balance a) then None else
    do q <- r_div k (wadd (t0 p) (amount t)) ;
    do out <- r_sub chk (t1 p) q ;
    do p1 <- r_sub chk (t1 p) out ;
    do p0 <- r_add chk (t0 p) (amount t) ;
    do b0 <- r_sub chk (t0_balance a) (amount t) ;
    do b1 <- r_add chk (t1_balance a) out ;
    Some (mkPool p0 p1, mkAccount b0 b1)
  else
    if asserts && negb (amount t <=? t1_balance a) then None else
    do q <- r_div k (wadd (t1 p) (amount t)) ;
    do out <- r_sub chk (t0 p) q ;
    do p0 <- r_sub chk (t0 p) out ;
    do p1 <- r_add chk (t1 p) (amount t) ;
    do b1 <- r_sub chk (t1_balance a) (amount t) ;
    do b0 <- r_add chk (t0_balance a) out ;
    Some (mkPool p0 p1, mkAccount b0 b1).

(** The guest as built: assertions present, release profile. *)
Definition guest_swap := swap true false.
(** The host's expectation, with the host's own profile. *)
Definition host_swap := swap false.

Definition swap_input (p : pool) (t : trade) (a : account) : value :=
  VSeq [VSeq [VInt (t0 p); VInt (t1 p)];
        VSeq [VInt (amount t); VInt (b2w (direction t))];
        VSeq [VInt (t0_balance a); VInt (t1_balance a)]].
Definition swap_output (o : pool * account) : value :=
  VSeq [VSeq [VInt (t0 (fst o)); VInt (t1 (fst o))];
        VSeq [VInt (t0_balance (snd o)); VInt (t1_balance (snd o))]].
Definition swap_fields (v : value) : option (pool * trade * account) :=
  match v with
  | VSeq [VSeq [VInt x0; VInt x1]; VSeq [VInt am; VInt d]; VSeq [VInt y0; VInt y1]] =>
      Some (mkPool x0 x1, mkTrade am (d =? 1), mkAccount y0 y1)
  | _ => None
  end.

(** The guest from tape to tape (uniswap/src/guest/src/main.rs:56-105): OUTPUT
    starts as zeros (line 53), and stays so if the guest panics. [None] only
    if the tape is not an [Input]. *)
Definition swap_guest (tape : list Z) : option (list Z) :=
  do v <- decode 4 swap_input_ty tape ;
  do x <- swap_fields v ;
  let '(p, t, a) := x in
  Some (match guest_swap p t a with
        | Some o => encode 4 (fun _ => 0) 0 swap_output_ty (swap_output o)
        | None => repeat 0 (size 4 swap_output_ty)
        end).

(** ** string-match *)

(** string-match/src/guest/src/main.rs:20 *)
Definition max_length : nat := 20.

(** [UpperBoundedString::new] (string-match/src/guest/src/main.rs:27-36,
    src/main.rs:25-34): panics above 20 bytes, else the bytes and zeros. *)
Definition bounded_new (s : list Z) : option (list Z) :=
  if Nat.ltb max_length (length s) then None
  else
    fold_left
      (fun acc (ib : nat * Z) => do l <- acc ; set_nth l (fst ib) (snd ib))
      (combine (seq 0 (length s)) s)
      (Some (repeat 0 max_length)).

(** [UpperBoundedString::eq] (lines 38-45): the loop with its early return. *)
Fixpoint bounded_eq_from (n i : nat) (a b : list Z) : option bool :=
  match n with
  | O => Some true
  | S n' =>
      match nth_error a i, nth_error b i with
      | Some x, Some y =>
          if negb (x =? y) then Some false else bounded_eq_from n' (S i) a b
      | _, _ => None
      end
  end.
Definition bounded_eq (a b : list Z) : option bool := bounded_eq_from max_length 0 a b.

(** "mississippi" *)
Definition hidden : list Z := [109; 105; 115; 115; 105; 115; 115; 105; 112; 112; 105].

Definition string_input_ty := TStruct [TStruct [TArr 20 TU8]].
Definition string_output_ty := TStruct [TBool].

Definition string_input (l : list Z) : value := VSeq [VSeq [VSeq (map VInt l)]].
Definition string_bytes (v : value) : option (list Z) :=
  match v with
  | VSeq [VSeq [VSeq l]] =>
      Some (map (fun x => match x with VInt z => z | VSeq _ => 0 end) l)
  | _ => None
  end.

(** The guest from tape to tape (string-match/src/guest/src/main.rs:65-87). *)
Definition string_guest (tape : list Z) : option (list Z) :=
  do v <- decode 4 string_input_ty tape ;
  do input <- string_bytes v ;
  do h <- bounded_new hidden ;
  do r <- bounded_eq h input ;
  Some (encode 4 (fun _ => 0) 0 string_output_ty (VSeq [VInt (b2w r)])).
(** The host's expectation (string-match/src/main.rs:86-90), for the string
    passed to [UpperBoundedString::new] at line 62. *)
Definition string_host (s : list Z) : option bool :=
  do i <- bounded_new s ;
  do h <- bounded_new hidden ;
  bounded_eq i h.

(** ** template *)

(** template/src/guest/src/main.rs:55 *)
Definition coefficients : list Z := [123; 456; 789; 12; 3456; 7; 89].

(** The loop of template/src/guest/src/main.rs:57-62 (the same at
    template/src/main.rs:73-78). *)
Fixpoint evaluate (chk : bool) (cs : list Z) (point evaluation pow : Z) : option Z :=
  match cs with
  | [] => Some evaluation
  | c :: r =>
      do x <- r_mul chk c pow ;
      do e <- r_add chk evaluation x ;
      do q <- r_mul chk pow point ;
      evaluate chk r point e q
  end.
Definition template (chk : bool) (point : Z) : option Z :=
  evaluate chk coefficients point 0 1.

Definition template_input_ty := TStruct [TU32].
Definition template_output_ty := TStruct [TU32].

(** The guest from tape to tape (template/src/guest/src/main.rs:43-76). *)
Definition template_guest (tape : list Z) : option (list Z) :=
  do v <- decode 4 template_input_ty tape ;
  match v with
  | VSeq [VInt point] =>
      do e <- template false point ;
      Some (encode 4 (fun _ => 0) 0 template_output_ty (VSeq [VInt e]))
  | _ => None
  end.

(** ** guest-test1 *)

(** gen-tests/src/guest-test1/src/main.rs:25 *)
Definition hardcoded : list Z := [10; 20; 30; 40].

(** gen-tests/src/guest-test1/src/main.rs:42-48 (the same at
    gen-tests/src/guest_test1.rs:20-30). *)
Definition guest_test1 (chk : bool) (a : Z) (branch : bool) : option Z :=
  if branch then
    fold_left (fun acc v => do x <- acc ; do y <- r_add chk x a ; r_add chk y v)
              hardcoded (Some 0)
  else
    fold_left (fun acc v => do x <- acc ; do y <- r_mul chk a v ; r_add chk x y)
              hardcoded (Some 0).

Definition test1_input_ty := TStruct [TU32; TBool].
Definition test1_output_ty := TStruct [TU32].

(** The guest from tape to tape (gen-tests/src/guest-test1/src/main.rs:37-60). *)
Definition test1_guest (tape : list Z) : option (list Z) :=
  do v <- decode 4 test1_input_ty tape ;
  match v with
  | VSeq [VInt a; VInt b] =>
      do o <- guest_test1 false a (b =? 1) ;
      Some (encode 4 (fun _ => 0) 0 test1_output_ty (VSeq [VInt o]))
  | _ => None
  end.
