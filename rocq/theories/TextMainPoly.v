(** * The host program of template, translated

    Generated by tools/gen_guest.py from compiler-tests/template/src/main.rs.
    Do not edit.  The operators are those of Rust.v and RustIter.v; the library
    is the records of RustLib.v, RustEng.v and RustHost.v. *)
Require Import ZArith List Bool.
From Verif Require Import Rust RustIter RustLib RustEng RustHost RustStr RustGuest.
From Verif Require Import TextInstr.
From Verif Require Import TextTest.
From Verif Require Import TextDebug.
From Verif Require Import TextMem.
From Verif Require Import TextEnc.
From Verif Require Import TextHost.
Import ListNotations.
Open Scope Z_scope.
Local Notation u8 := (Rust.int Rust.U8).
Local Notation u16 := (Rust.int Rust.U16).
Local Notation u32 := (Rust.int Rust.U32).
Local Notation u64 := (Rust.int Rust.U64).
Local Notation usize := (Rust.int Rust.USize).
Local Notation i32 := (Rust.int Rust.I32).
Local Notation i64 := (Rust.int Rust.I64).

Section Text.
Variable L : library.
Variable E : engine L.
Variable H : host L E.

(** compiler-tests/template/src/main.rs:17-19 *)
Record Output := mk_Output {
  Output_evaluation : u32 }.

Definition set_Output_evaluation (s : Output) (x : u32) : Output :=
  mk_Output x.

(** compiler-tests/template/src/main.rs:22-24 *)
Record Input := mk_Input {
  Input_point : u32 }.

Definition set_Input_point (s : Input) (x : u32) : Input :=
  mk_Input x.

(** the bytes of a value in memory, and a value read from bytes *)
Variable to_u8_slice : Input -> list u8.
Variable from_u8_slice : list u8 -> option Output.

(** compiler-tests/template/src/main.rs:71-82 *)
Definition prog_expected_output (p : Rust.profile) (input : Input) : option Output :=
  let coefficients := [(Rust.lit 123); (Rust.lit 456); (Rust.lit 789); (Rust.lit 12); (Rust.lit 3456); (Rust.lit 7); (Rust.lit 89)] in
  let evaluation := (Rust.lit 0) in
  let pow_point := (Rust.lit 1) in
  '(evaluation, pow_point) <- Rust.for_each coefficients (fun coeff '(evaluation, pow_point) => t1 <- Rust.mul p coeff pow_point ;;
    t2 <- Rust.add p evaluation t1 ;;
    let evaluation := t2 in
    t3 <- Rust.mul p pow_point (Input_point input) ;;
    let pow_point := t3 in
    Some (evaluation, pow_point)) (evaluation, pow_point) ;;
  Some (mk_Output evaluation).

(** compiler-tests/template/src/main.rs:29-91 *)
Definition prog_main (p : Rust.profile) (fuel : nat) (elf_bytes : (list u8)) : option unit :=
  t1 <- Phantom_from_elf L E H p elf_bytes ;;
  let pz := t1 in
  t3 <- RustGuest.and_then (env_var H (RustStr.str [77; 65; 88; 95; 67; 89; 67; 76; 69; 83])) (fun v => Some (RustStr.parse_usize v)) ;;
  let max_cycles := (RustStr.unwrap_or t3 (Rust.lit 700)) in
  let input := (mk_Input (Rust.lit 123)) in
  let input_tape := (to_u8_slice input) in
  t4 <- Phantom_encrypted_vm L E H p pz input_tape max_cycles ;;
  let enc_vm := t4 in
  t5 <- EncryptedVM_execute L E H p fuel enc_vm ;;
  let enc_vm := t5 in
  '(t6, t7) <- EncryptedVM_output_tape L E H p enc_vm ;;
  let enc_vm := t6 in
  let encrypted_vm_output_tape := t7 in
  t8 <- Phantom_test_vm p pz max_cycles ;;
  let vm := t8 in
  t9 <- TestVM_read_input_tape p vm input_tape ;;
  let vm := t9 in
  t10 <- TestVM_execute p fuel vm ;;
  let vm := t10 in
  t11 <- TestVM_output_tape p vm ;;
  let output_tape := t11 in
  if (RustIter.eq_list output_tape encrypted_vm_output_tape) then t12 <- from_u8_slice output_tape ;;
  let have_output := t12 in
  let have_evaluation := (Output_evaluation have_output) in
  t13 <- prog_expected_output p input ;;
  let want_output := t13 in
  let want_evaluation := (Output_evaluation want_output) in
  if (Rust.eq have_evaluation want_evaluation) then Some tt else None else None.

End Text.
