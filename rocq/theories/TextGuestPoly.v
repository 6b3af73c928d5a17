(** * The guest template, translated

    Generated by tools/gen_guest.py from compiler-tests/template/src/guest/src/main.rs.
    Do not edit.  The operators are those of Rust.v, RustIter.v, RustStr.v and RustGuest.v. *)
Require Import ZArith List Bool.
From Verif Require Import Rust RustIter RustStr RustGuest.
Import ListNotations.
Open Scope Z_scope.
Local Notation u8 := (Rust.int Rust.U8).
Local Notation u16 := (Rust.int Rust.U16).
Local Notation u32 := (Rust.int Rust.U32).
Local Notation u64 := (Rust.int Rust.U64).
Local Notation usize := (Rust.int Rust.USize).
Local Notation i32 := (Rust.int Rust.I32).
Local Notation i64 := (Rust.int Rust.I64).

Section Text.

(** compiler-tests/template/src/guest/src/main.rs:17-19 *)
Record Output := mk_Output {
  Output_evaluation : u32 }.

Definition set_Output_evaluation (s : Output) (x : u32) : Output :=
  mk_Output x.

(** compiler-tests/template/src/guest/src/main.rs:22-24 *)
Record Input := mk_Input {
  Input_point : u32 }.

Definition set_Input_point (s : Input) (x : u32) : Input :=
  mk_Input x.

(** compiler-tests/template/src/guest/src/main.rs:43-68 *)
Definition guest_main (p : Rust.profile) (input : Input) : option Output :=
  let point := (Input_point input) in
  let coefficients : (list u32) := [(Rust.lit 123); (Rust.lit 456); (Rust.lit 789); (Rust.lit 12); (Rust.lit 3456); (Rust.lit 7); (Rust.lit 89)] in
  let evaluation := (Rust.lit 0) in
  let pow_point := (Rust.lit 1) in
  '(evaluation, pow_point) <- Rust.for_each coefficients (fun coeff '(evaluation, pow_point) => t1 <- Rust.mul p coeff pow_point ;;
    t2 <- Rust.add p evaluation t1 ;;
    let evaluation := t2 in
    t3 <- Rust.mul p pow_point (Input_point input) ;;
    let pow_point := t3 in
    Some (evaluation, pow_point)) (evaluation, pow_point) ;;
  let output_str := (mk_Output evaluation) in
  Some output_str.

End Text.
