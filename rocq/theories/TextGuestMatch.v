(** * The guest string-match, translated

    Generated by tools/gen_guest.py from compiler-tests/string-match/src/guest/src/main.rs.
    Do not edit.  The operators are those of Rust.v, RustIter.v, RustStr.v and RustGuest.v. *)
Require Import ZArith List Bool.
From Verif Require Import Rust RustIter RustStr RustGuest.
Import ListNotations.
Open Scope Z_scope.
Local Notation u8 := (Rust.int Rust.U8).
Local Notation u16 := (Rust.int Rust.U16).
Local Notation u32 := (Rust.int Rust.U32).
Local Notation u64 := (Rust.int Rust.U64).
Local Notation usize := (Rust.int Rust.USize).
Local Notation i32 := (Rust.int Rust.I32).
Local Notation i64 := (Rust.int Rust.I64).

Section Text.
(** compiler-tests/string-match/src/guest/src/main.rs:20-20 *)
Definition guest_MAX_LENGTH : usize := Rust.lit 20.

(** compiler-tests/string-match/src/guest/src/main.rs:16-18 *)
Record Output := mk_Output {
  Output_is_match : bool }.

Definition set_Output_is_match (s : Output) (x : bool) : Output :=
  mk_Output x.

(** compiler-tests/string-match/src/guest/src/main.rs:22-24 *)
Record UpperBoundedString := mk_UpperBoundedString {
  UpperBoundedString_characters : (list u8) }.

Definition set_UpperBoundedString_characters (s : UpperBoundedString) (x : (list u8)) : UpperBoundedString :=
  mk_UpperBoundedString x.

(** compiler-tests/string-match/src/guest/src/main.rs:49-51 *)
Record Input := mk_Input {
  Input_input_string : UpperBoundedString }.

Definition set_Input_input_string (s : Input) (x : UpperBoundedString) : Input :=
  mk_Input x.

(** compiler-tests/string-match/src/guest/src/main.rs:27-36 *)
Definition UpperBoundedString_new (p : Rust.profile) (string : (list u8)) : option UpperBoundedString :=
  _ <- (if (Rust.gt (Rust.len string) guest_MAX_LENGTH)
    then (None)
    else (Some tt)) ;;
  let characters := (Rust.filled (Rust.lit (t := Rust.U8) 0) guest_MAX_LENGTH) in
  characters <- Rust.for_each (RustIter.enumerate string) (fun '(i, byte) characters => t1 <- Rust.store characters i byte ;;
    let characters := t1 in
    Some characters) characters ;;
  Some (mk_UpperBoundedString characters).

(** compiler-tests/string-match/src/guest/src/main.rs:38-45 *)
Definition UpperBoundedString_eq (p : Rust.profile) (self : UpperBoundedString) (other : UpperBoundedString) : option bool :=
  t3 <- RustGuest.for_ret (Rust.lit 0) guest_MAX_LENGTH (fun i => t1 <- Rust.index (UpperBoundedString_characters self) i ;;
    t2 <- Rust.index (UpperBoundedString_characters other) i ;;
    if (Rust.ne t1 t2)
    then (Some (inl false))
    else (Some (inr tt))) ;;
  match t3 with inl t3 => Some t3 | inr _ => Some true end.

(** compiler-tests/string-match/src/guest/src/main.rs:65-79 *)
Definition guest_main (p : Rust.profile) (input : Input) : option Output :=
  let input_string := (Input_input_string input) in
  t1 <- UpperBoundedString_new p (RustStr.str [109; 105; 115; 115; 105; 115; 115; 105; 112; 112; 105]) ;;
  let hidden_string := t1 in
  t2 <- UpperBoundedString_eq p hidden_string input_string ;;
  let is_match := t2 in
  let output_str := (mk_Output is_match) in
  Some output_str.

End Text.
