(** * The host program of string-match, translated

    Generated by tools/gen_guest.py from compiler-tests/string-match/src/main.rs.
    Do not edit.  The operators are those of Rust.v and RustIter.v; the library
    is the records of RustLib.v, RustEng.v and RustHost.v. *)
Require Import ZArith List Bool.
From Verif Require Import Rust RustIter RustLib RustEng RustHost RustStr RustGuest.
From Verif Require Import TextInstr.
From Verif Require Import TextTest.
From Verif Require Import TextDebug.
From Verif Require Import TextMem.
From Verif Require Import TextEnc.
From Verif Require Import TextHost.
Import ListNotations.
Open Scope Z_scope.
Local Notation u8 := (Rust.int Rust.U8).
Local Notation u16 := (Rust.int Rust.U16).
Local Notation u32 := (Rust.int Rust.U32).
Local Notation u64 := (Rust.int Rust.U64).
Local Notation usize := (Rust.int Rust.USize).
Local Notation i32 := (Rust.int Rust.I32).
Local Notation i64 := (Rust.int Rust.I64).

Section Text.
Variable L : library.
Variable E : engine L.
Variable H : host L E.
(** compiler-tests/string-match/src/main.rs:18-18 *)
Definition prog_MAX_LENGTH : usize := Rust.lit 20.

(** compiler-tests/string-match/src/main.rs:14-16 *)
Record Output := mk_Output {
  Output_is_match : bool }.

Definition set_Output_is_match (s : Output) (x : bool) : Output :=
  mk_Output x.

(** compiler-tests/string-match/src/main.rs:20-22 *)
Record UpperBoundedString := mk_UpperBoundedString {
  UpperBoundedString_characters : (list u8) }.

Definition set_UpperBoundedString_characters (s : UpperBoundedString) (x : (list u8)) : UpperBoundedString :=
  mk_UpperBoundedString x.

(** compiler-tests/string-match/src/main.rs:47-49 *)
Record Input := mk_Input {
  Input_input_string : UpperBoundedString }.

Definition set_Input_input_string (s : Input) (x : UpperBoundedString) : Input :=
  mk_Input x.

(** the bytes of a value in memory, and a value read from bytes *)
Variable to_u8_slice : Input -> list u8.
Variable from_u8_slice : list u8 -> option Output.

(** compiler-tests/string-match/src/main.rs:25-34 *)
Definition UpperBoundedString_new (p : Rust.profile) (input_string : (list u8)) : option UpperBoundedString :=
  _ <- (if (Rust.gt (Rust.len input_string) prog_MAX_LENGTH)
    then (None)
    else (Some tt)) ;;
  let characters := (Rust.filled (Rust.lit (t := Rust.U8) 0) prog_MAX_LENGTH) in
  characters <- Rust.for_each (RustIter.enumerate input_string) (fun '(i, byte) characters => t1 <- Rust.store characters i byte ;;
    let characters := t1 in
    Some characters) characters ;;
  Some (mk_UpperBoundedString characters).

(** compiler-tests/string-match/src/main.rs:36-43 *)
Definition UpperBoundedString_eq (p : Rust.profile) (self : UpperBoundedString) (other : UpperBoundedString) : option bool :=
  t3 <- RustGuest.for_ret (Rust.lit 0) prog_MAX_LENGTH (fun i => t1 <- Rust.index (UpperBoundedString_characters self) i ;;
    t2 <- Rust.index (UpperBoundedString_characters other) i ;;
    if (Rust.ne t1 t2)
    then (Some (inl false))
    else (Some (inr tt))) ;;
  match t3 with inl t3 => Some t3 | inr _ => Some true end.

(** compiler-tests/string-match/src/main.rs:86-90 *)
Definition prog_expected_output (p : Rust.profile) (input : Input) : option Output :=
  t1 <- UpperBoundedString_new p (RustStr.str [109; 105; 115; 115; 105; 115; 115; 105; 112; 112; 105]) ;;
  let hidden_string := t1 in
  t2 <- UpperBoundedString_eq p (Input_input_string input) hidden_string ;;
  let is_match := t2 in
  Some (mk_Output is_match).

(** compiler-tests/string-match/src/main.rs:51-100 *)
Definition prog_main (p : Rust.profile) (fuel : nat) (elf_bytes : (list u8)) : option unit :=
  t1 <- Phantom_from_elf L E H p elf_bytes ;;
  let pz := t1 in
  t3 <- RustGuest.and_then (env_var H (RustStr.str [77; 65; 88; 95; 67; 89; 67; 76; 69; 83])) (fun v => Some (RustStr.parse_usize v)) ;;
  let max_cycles := (RustStr.unwrap_or t3 (Rust.lit 100)) in
  t4 <- UpperBoundedString_new p (RustStr.str [110; 111; 116; 45; 109; 105; 115; 115; 105; 115; 115; 105; 112; 112; 105]) ;;
  let input := (mk_Input t4) in
  t5 <- Phantom_encrypted_vm L E H p pz (to_u8_slice input) max_cycles ;;
  let enc_vm := t5 in
  t6 <- EncryptedVM_execute L E H p fuel enc_vm ;;
  let enc_vm := t6 in
  '(t7, t8) <- EncryptedVM_output_tape L E H p enc_vm ;;
  let enc_vm := t7 in
  let encrypted_vm_output_tape := t8 in
  t9 <- Phantom_test_vm p pz max_cycles ;;
  let vm := t9 in
  t10 <- TestVM_read_input_tape p vm (to_u8_slice input) ;;
  let vm := t10 in
  t11 <- TestVM_execute p fuel vm ;;
  let vm := t11 in
  t12 <- TestVM_output_tape p vm ;;
  let output_tape := t12 in
  if (RustIter.eq_list output_tape encrypted_vm_output_tape) then t13 <- from_u8_slice output_tape ;;
  let have_output := t13 in
  let have_is_match := (Output_is_match have_output) in
  t14 <- prog_expected_output p input ;;
  let want_output := t14 in
  let want_is_match := (Output_is_match want_output) in
  if (Bool.eqb have_is_match want_is_match) then Some tt else None else None.

End Text.
