(** * The guest uniswap, translated

    Generated by tools/gen_guest.py from compiler-tests/uniswap/src/guest/src/main.rs.
    Do not edit.  The operators are those of Rust.v, RustIter.v, RustStr.v and RustGuest.v. *)
Require Import ZArith List Bool.
From Verif Require Import Rust RustIter RustStr RustGuest.
Import ListNotations.
Open Scope Z_scope.
Local Notation u8 := (Rust.int Rust.U8).
Local Notation u16 := (Rust.int Rust.U16).
Local Notation u32 := (Rust.int Rust.U32).
Local Notation u64 := (Rust.int Rust.U64).
Local Notation usize := (Rust.int Rust.USize).
Local Notation i32 := (Rust.int Rust.I32).
Local Notation i64 := (Rust.int Rust.I64).

Section Text.

(** compiler-tests/uniswap/src/guest/src/main.rs:14-17 *)
Record Pool := mk_Pool {
  Pool_t0 : u32;
  Pool_t1 : u32 }.

Definition set_Pool_t0 (s : Pool) (x : u32) : Pool :=
  mk_Pool x (Pool_t1 s).

Definition set_Pool_t1 (s : Pool) (x : u32) : Pool :=
  mk_Pool (Pool_t0 s) x.

(** compiler-tests/uniswap/src/guest/src/main.rs:26-31 *)
Record Trade := mk_Trade {
  Trade_amount : u32;
  Trade_direction : bool }.

Definition set_Trade_amount (s : Trade) (x : u32) : Trade :=
  mk_Trade x (Trade_direction s).

Definition set_Trade_direction (s : Trade) (x : bool) : Trade :=
  mk_Trade (Trade_amount s) x.

(** compiler-tests/uniswap/src/guest/src/main.rs:34-37 *)
Record Account := mk_Account {
  Account_t0_balance : u32;
  Account_t1_balance : u32 }.

Definition set_Account_t0_balance (s : Account) (x : u32) : Account :=
  mk_Account x (Account_t1_balance s).

Definition set_Account_t1_balance (s : Account) (x : u32) : Account :=
  mk_Account (Account_t0_balance s) x.

(** compiler-tests/uniswap/src/guest/src/main.rs:20-23 *)
Record Output := mk_Output {
  Output_pool : Pool;
  Output_account : Account }.

Definition set_Output_pool (s : Output) (x : Pool) : Output :=
  mk_Output x (Output_account s).

Definition set_Output_account (s : Output) (x : Account) : Output :=
  mk_Output (Output_pool s) x.

(** compiler-tests/uniswap/src/guest/src/main.rs:40-44 *)
Record Input := mk_Input {
  Input_pool : Pool;
  Input_trade : Trade;
  Input_account : Account }.

Definition set_Input_pool (s : Input) (x : Pool) : Input :=
  mk_Input x (Input_trade s) (Input_account s).

Definition set_Input_trade (s : Input) (x : Trade) : Input :=
  mk_Input (Input_pool s) x (Input_account s).

Definition set_Input_account (s : Input) (x : Account) : Input :=
  mk_Input (Input_pool s) (Input_trade s) x.

(** compiler-tests/uniswap/src/guest/src/main.rs:56-97 *)
Definition guest_main (p : Rust.profile) (input : Input) : option Output :=
  let pool := (Input_pool input) in
  let trade := (Input_trade input) in
  let account := (Input_account input) in
  let k := (Rust.wrapping_mul (Pool_t0 pool) (Pool_t1 pool)) in
  '(pool, account) <- (if (Bool.eqb (Trade_direction trade) true)
    then (if (Rust.ge (Account_t0_balance account) (Trade_amount trade)) then t1 <- Rust.div k (Rust.wrapping_add (Pool_t0 pool) (Trade_amount trade)) ;;
      t2 <- Rust.sub p (Pool_t1 pool) t1 ;;
      let t1_out := t2 in
      t3 <- Rust.sub p (Pool_t1 pool) t1_out ;;
      let pool := (set_Pool_t1 pool t3) in
      t4 <- Rust.add p (Pool_t0 pool) (Trade_amount trade) ;;
      let pool := (set_Pool_t0 pool t4) in
      t5 <- Rust.sub p (Account_t0_balance account) (Trade_amount trade) ;;
      let account := (set_Account_t0_balance account t5) in
      t6 <- Rust.add p (Account_t1_balance account) t1_out ;;
      let account := (set_Account_t1_balance account t6) in
      Some (pool, account) else None)
    else (if (Rust.ge (Account_t1_balance account) (Trade_amount trade)) then t7 <- Rust.div k (Rust.wrapping_add (Pool_t1 pool) (Trade_amount trade)) ;;
      t8 <- Rust.sub p (Pool_t0 pool) t7 ;;
      let t0_out := t8 in
      t9 <- Rust.sub p (Pool_t0 pool) t0_out ;;
      let pool := (set_Pool_t0 pool t9) in
      t10 <- Rust.add p (Pool_t1 pool) (Trade_amount trade) ;;
      let pool := (set_Pool_t1 pool t10) in
      t11 <- Rust.sub p (Account_t1_balance account) (Trade_amount trade) ;;
      let account := (set_Account_t1_balance account t11) in
      t12 <- Rust.add p (Account_t0_balance account) t0_out ;;
      let account := (set_Account_t0_balance account t12) in
      Some (pool, account) else None)) ;;
  let output_str := (mk_Output pool account) in
  Some output_str.

End Text.
