(** * The test cases of guest-test1, translated

    Generated by tools/gen_guest.py from compiler-tests/gen-tests/src/guest_test1.rs.
    Do not edit.  The operators are those of Rust.v, RustIter.v, RustStr.v and RustGuest.v. *)
Require Import ZArith List Bool.
From Verif Require Import Rust RustIter RustStr RustGuest.
Import ListNotations.
Open Scope Z_scope.
Local Notation u8 := (Rust.int Rust.U8).
Local Notation u16 := (Rust.int Rust.U16).
Local Notation u32 := (Rust.int Rust.U32).
Local Notation u64 := (Rust.int Rust.U64).
Local Notation usize := (Rust.int Rust.USize).
Local Notation i32 := (Rust.int Rust.I32).
Local Notation i64 := (Rust.int Rust.I64).

Section Text.

(** compiler-tests/gen-tests/src/guest_test1.rs:6-8 *)
Record Output := mk_Output {
  Output_out : u32 }.

Definition set_Output_out (s : Output) (x : u32) : Output :=
  mk_Output x.

(** compiler-tests/gen-tests/src/guest_test1.rs:11-14 *)
Record Input := mk_Input {
  Input_in_a : u32;
  Input_branch : bool }.

Definition set_Input_in_a (s : Input) (x : u32) : Input :=
  mk_Input x (Input_branch s).

Definition set_Input_branch (s : Input) (x : bool) : Input :=
  mk_Input (Input_in_a s) x.

(** the bytes of a value in memory, and a value read from bytes *)
Variable to_u8_slice : Input -> list u8.
Variable to_u8_slice_Output : Output -> list u8.

(** compiler-tests/gen-tests/src/guest_test1.rs:20-30 *)
Definition gen_run (p : Rust.profile) (input : Input) : option Output :=
  let hardcoded_value : (list u32) := [(Rust.lit 10); (Rust.lit 20); (Rust.lit 30); (Rust.lit 40)] in
  let in_a := (Input_in_a input) in
  t1 <- (if (Input_branch input)
    then (t4 <- Rust.for_each hardcoded_value (fun v acc => t2 <- Rust.add p acc in_a ;;
        t3 <- Rust.add p t2 v ;;
        Some t3) (Rust.lit 0) ;;
      Some t4)
    else (t7 <- Rust.for_each hardcoded_value (fun v acc => t5 <- Rust.mul p in_a v ;;
        t6 <- Rust.add p acc t5 ;;
        Some t6) (Rust.lit 0) ;;
      Some t7)) ;;
  let out := t1 in
  Some (mk_Output out).

(** compiler-tests/gen-tests/src/guest_test1.rs:33-43 *)
Definition gen_test_cases (p : Rust.profile)  : option (list ((list u8) * (list u8))) :=
  let cases := [] in
  cases <- Rust.for_each [(Rust.lit 10); (Rust.lit 20); (Rust.lit 30)] (fun in_a cases => cases <- Rust.for_each [true; false] (fun branch cases => let input := (mk_Input in_a branch) in
      t1 <- gen_run p input ;;
      let output := t1 in
      let cases := (Rust.push cases ((to_u8_slice input), (to_u8_slice_Output output))) in
      Some cases) cases ;;
    Some cases) cases ;;
  Some cases.

End Text.
