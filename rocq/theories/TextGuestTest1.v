(** * The guest guest-test1, translated

    Generated by tools/gen_guest.py from compiler-tests/gen-tests/src/guest-test1/src/main.rs.
    Do not edit.  The operators are those of Rust.v, RustIter.v, RustStr.v and RustGuest.v. *)
Require Import ZArith List Bool.
From Verif Require Import Rust RustIter RustStr RustGuest.
Import ListNotations.
Open Scope Z_scope.
Local Notation u8 := (Rust.int Rust.U8).
Local Notation u16 := (Rust.int Rust.U16).
Local Notation u32 := (Rust.int Rust.U32).
Local Notation u64 := (Rust.int Rust.U64).
Local Notation usize := (Rust.int Rust.USize).
Local Notation i32 := (Rust.int Rust.I32).
Local Notation i64 := (Rust.int Rust.I64).

Section Text.

(** compiler-tests/gen-tests/src/guest-test1/src/main.rs:14-16 *)
Record Output := mk_Output {
  Output_out : u32 }.

Definition set_Output_out (s : Output) (x : u32) : Output :=
  mk_Output x.

(** compiler-tests/gen-tests/src/guest-test1/src/main.rs:19-22 *)
Record Input := mk_Input {
  Input_in_a : u32;
  Input_branch : bool }.

Definition set_Input_in_a (s : Input) (x : u32) : Input :=
  mk_Input x (Input_branch s).

Definition set_Input_branch (s : Input) (x : bool) : Input :=
  mk_Input (Input_in_a s) x.

(** compiler-tests/gen-tests/src/guest-test1/src/main.rs:37-52 *)
Definition guest_main (p : Rust.profile) (input : Input) : option Output :=
  let hardcoded_value : (list u32) := [(Rust.lit 10); (Rust.lit 20); (Rust.lit 30); (Rust.lit 40)] in
  let in_a := (Input_in_a input) in
  t1 <- (if (Input_branch input)
    then (t4 <- Rust.for_each hardcoded_value (fun v acc => t2 <- Rust.add p acc in_a ;;
        t3 <- Rust.add p t2 v ;;
        Some t3) (Rust.lit 0) ;;
      Some t4)
    else (t7 <- Rust.for_each hardcoded_value (fun v acc => t5 <- Rust.mul p in_a v ;;
        t6 <- Rust.add p acc t5 ;;
        Some t6) (Rust.lit 0) ;;
      Some t7)) ;;
  let out := t1 in
  let output_str := (mk_Output out) in
  Some output_str.

End Text.
