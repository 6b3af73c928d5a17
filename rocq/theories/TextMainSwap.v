(** * The host program of uniswap, translated

    Generated by tools/gen_guest.py from compiler-tests/uniswap/src/main.rs.
    Do not edit.  The operators are those of Rust.v and RustIter.v; the library
    is the records of RustLib.v, RustEng.v and RustHost.v. *)
Require Import ZArith List Bool.
From Verif Require Import Rust RustIter RustLib RustEng RustHost RustStr RustGuest.
From Verif Require Import TextInstr.
From Verif Require Import TextTest.
From Verif Require Import TextDebug.
From Verif Require Import TextMem.
From Verif Require Import TextEnc.
From Verif Require Import TextHost.
Import ListNotations.
Open Scope Z_scope.
Local Notation u8 := (Rust.int Rust.U8).
Local Notation u16 := (Rust.int Rust.U16).
Local Notation u32 := (Rust.int Rust.U32).
Local Notation u64 := (Rust.int Rust.U64).
Local Notation usize := (Rust.int Rust.USize).
Local Notation i32 := (Rust.int Rust.I32).
Local Notation i64 := (Rust.int Rust.I64).

Section Text.
Variable L : library.
Variable E : engine L.
Variable H : host L E.

(** compiler-tests/uniswap/src/main.rs:14-17 *)
Record Account := mk_Account {
  Account_t0_balance : u32;
  Account_t1_balance : u32 }.

Definition set_Account_t0_balance (s : Account) (x : u32) : Account :=
  mk_Account x (Account_t1_balance s).

Definition set_Account_t1_balance (s : Account) (x : u32) : Account :=
  mk_Account (Account_t0_balance s) x.

(** compiler-tests/uniswap/src/main.rs:21-26 *)
Record Trade := mk_Trade {
  Trade_amount : u32;
  Trade_direction : bool }.

Definition set_Trade_amount (s : Trade) (x : u32) : Trade :=
  mk_Trade x (Trade_direction s).

Definition set_Trade_direction (s : Trade) (x : bool) : Trade :=
  mk_Trade (Trade_amount s) x.

(** compiler-tests/uniswap/src/main.rs:30-33 *)
Record Pool := mk_Pool {
  Pool_t0 : u32;
  Pool_t1 : u32 }.

Definition set_Pool_t0 (s : Pool) (x : u32) : Pool :=
  mk_Pool x (Pool_t1 s).

Definition set_Pool_t1 (s : Pool) (x : u32) : Pool :=
  mk_Pool (Pool_t0 s) x.

(** compiler-tests/uniswap/src/main.rs:37-40 *)
Record Output := mk_Output {
  Output_pool : Pool;
  Output_account : Account }.

Definition set_Output_pool (s : Output) (x : Pool) : Output :=
  mk_Output x (Output_account s).

Definition set_Output_account (s : Output) (x : Account) : Output :=
  mk_Output (Output_pool s) x.

(** compiler-tests/uniswap/src/main.rs:44-48 *)
Record Input := mk_Input {
  Input_pool : Pool;
  Input_trade : Trade;
  Input_account : Account }.

Definition set_Input_pool (s : Input) (x : Pool) : Input :=
  mk_Input x (Input_trade s) (Input_account s).

Definition set_Input_trade (s : Input) (x : Trade) : Input :=
  mk_Input (Input_pool s) x (Input_account s).

Definition set_Input_account (s : Input) (x : Account) : Input :=
  mk_Input (Input_pool s) (Input_trade s) x.

(** the bytes of a value in memory, and a value read from bytes *)
Variable to_u8_slice : Input -> list u8.
Variable from_u8_slice : list u8 -> option Output.

(** compiler-tests/uniswap/src/main.rs:50-118 *)
Definition prog_main (p : Rust.profile) (fuel : nat) (elf_bytes : (list u8)) : option unit :=
  t1 <- Phantom_from_elf L E H p elf_bytes ;;
  let pz := t1 in
  let pool := (mk_Pool (Rust.lit 100) (Rust.lit 500)) in
  let trade := (mk_Trade (Rust.lit 50) true) in
  let account := (mk_Account (Rust.lit 60) (Rust.lit 0)) in
  let input := (mk_Input pool trade account) in
  t3 <- RustGuest.and_then (env_var H (RustStr.str [77; 65; 88; 95; 67; 89; 67; 76; 69; 83])) (fun v => Some (RustStr.parse_usize v)) ;;
  let max_cycles := (RustStr.unwrap_or t3 (Rust.lit 300)) in
  let input_tape := (to_u8_slice input) in
  t4 <- Phantom_encrypted_vm L E H p pz input_tape max_cycles ;;
  let enc_vm := t4 in
  t5 <- EncryptedVM_execute L E H p fuel enc_vm ;;
  let enc_vm := t5 in
  t6 <- Phantom_test_vm p pz max_cycles ;;
  let vm := t6 in
  t7 <- TestVM_read_input_tape p vm input_tape ;;
  let vm := t7 in
  t8 <- TestVM_execute p fuel vm ;;
  let vm := t8 in
  t9 <- TestVM_output_tape p vm ;;
  let output_tape := t9 in
  '(t10, t11) <- EncryptedVM_output_tape L E H p enc_vm ;;
  let enc_vm := t10 in
  if (RustIter.eq_list output_tape t11) then let want_pool := pool in
  let want_account := account in
  let k := (Rust.wrapping_mul (Pool_t0 want_pool) (Pool_t1 want_pool)) in
  '(want_pool, want_account) <- (if (Bool.eqb (Trade_direction trade) true)
    then (t12 <- Rust.div k (Rust.wrapping_add (Pool_t0 want_pool) (Trade_amount trade)) ;;
      t13 <- Rust.sub p (Pool_t1 want_pool) t12 ;;
      let t1_out := t13 in
      t14 <- Rust.sub p (Pool_t1 want_pool) t1_out ;;
      let want_pool := (set_Pool_t1 want_pool t14) in
      t15 <- Rust.add p (Pool_t0 want_pool) (Trade_amount trade) ;;
      let want_pool := (set_Pool_t0 want_pool t15) in
      t16 <- Rust.sub p (Account_t0_balance want_account) (Trade_amount trade) ;;
      let want_account := (set_Account_t0_balance want_account t16) in
      t17 <- Rust.add p (Account_t1_balance want_account) t1_out ;;
      let want_account := (set_Account_t1_balance want_account t17) in
      Some (want_pool, want_account))
    else (t18 <- Rust.div k (Rust.wrapping_add (Pool_t1 want_pool) (Trade_amount trade)) ;;
      t19 <- Rust.sub p (Pool_t0 want_pool) t18 ;;
      let t0_out := t19 in
      t20 <- Rust.sub p (Pool_t0 want_pool) t0_out ;;
      let want_pool := (set_Pool_t0 want_pool t20) in
      t21 <- Rust.add p (Pool_t1 want_pool) (Trade_amount trade) ;;
      let want_pool := (set_Pool_t1 want_pool t21) in
      t22 <- Rust.sub p (Account_t1_balance want_account) (Trade_amount trade) ;;
      let want_account := (set_Account_t1_balance want_account t22) in
      t23 <- Rust.add p (Account_t0_balance want_account) t0_out ;;
      let want_account := (set_Account_t0_balance want_account t23) in
      Some (want_pool, want_account))) ;;
  t24 <- from_u8_slice output_tape ;;
  let have_output := t24 in
  let have_account := (Output_account have_output) in
  let have_pool := (Output_pool have_output) in
  if ((Rust.eq (Account_t0_balance have_account) (Account_t0_balance want_account)) && (Rust.eq (Account_t1_balance have_account) (Account_t1_balance want_account))) then if ((Rust.eq (Pool_t0 have_pool) (Pool_t0 want_pool)) && (Rust.eq (Pool_t1 have_pool) (Pool_t1 want_pool))) then Some tt else None else None else None.

End Text.
