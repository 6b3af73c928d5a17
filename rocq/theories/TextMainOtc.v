(** * The host program of otc, translated

    Generated by tools/gen_guest.py from compiler-tests/otc/src/lib.rs, compiler-tests/otc/src/main.rs.
    Do not edit.  The operators are those of Rust.v and RustIter.v; the library
    is the records of RustLib.v, RustEng.v and RustHost.v. *)
Require Import ZArith List Bool.
From Verif Require Import Rust RustIter RustLib RustEng RustHost RustStr RustGuest.
From Verif Require Import TextInstr.
From Verif Require Import TextTest.
From Verif Require Import TextDebug.
From Verif Require Import TextMem.
From Verif Require Import TextEnc.
From Verif Require Import TextHost.
Import ListNotations.
Open Scope Z_scope.
Local Notation u8 := (Rust.int Rust.U8).
Local Notation u16 := (Rust.int Rust.U16).
Local Notation u32 := (Rust.int Rust.U32).
Local Notation u64 := (Rust.int Rust.U64).
Local Notation usize := (Rust.int Rust.USize).
Local Notation i32 := (Rust.int Rust.I32).
Local Notation i64 := (Rust.int Rust.I64).

Section Text.
Variable L : library.
Variable E : engine L.
Variable H : host L E.

(** compiler-tests/otc/src/lib.rs:2-6 *)
Inductive ClientType := | ClientType_RETAIL | ClientType_INSTITUTIONAL | ClientType_PRIME.

(** compiler-tests/otc/src/lib.rs:20-27 *)
Record MarketData := mk_MarketData {
  MarketData_mid_price : f32;
  MarketData_window_volume : f32;
  MarketData_volatility_factor : f32 }.

Definition set_MarketData_mid_price (s : MarketData) (x : f32) : MarketData :=
  mk_MarketData x (MarketData_window_volume s) (MarketData_volatility_factor s).

Definition set_MarketData_window_volume (s : MarketData) (x : f32) : MarketData :=
  mk_MarketData (MarketData_mid_price s) x (MarketData_volatility_factor s).

Definition set_MarketData_volatility_factor (s : MarketData) (x : f32) : MarketData :=
  mk_MarketData (MarketData_mid_price s) (MarketData_window_volume s) x.

(** compiler-tests/otc/src/lib.rs:50-52 *)
Record Trade := mk_Trade {
  Trade_amount : f32 }.

Definition set_Trade_amount (s : Trade) (x : f32) : Trade :=
  mk_Trade x.

(** compiler-tests/otc/src/lib.rs:61-64 *)
Record Quote := mk_Quote {
  Quote_ask_price : f32;
  Quote_bid_price : f32 }.

Definition set_Quote_ask_price (s : Quote) (x : f32) : Quote :=
  mk_Quote x (Quote_bid_price s).

Definition set_Quote_bid_price (s : Quote) (x : f32) : Quote :=
  mk_Quote (Quote_ask_price s) x.

(** compiler-tests/otc/src/lib.rs:9-11 *)
Record ClientProfile := mk_ClientProfile {
  ClientProfile_client_type : ClientType }.

Definition set_ClientProfile_client_type (s : ClientProfile) (x : ClientType) : ClientProfile :=
  mk_ClientProfile x.

(** compiler-tests/otc/src/main.rs:22-24 *)
Record Output := mk_Output {
  Output_quote : Quote }.

Definition set_Output_quote (s : Output) (x : Quote) : Output :=
  mk_Output x.

(** compiler-tests/otc/src/main.rs:15-19 *)
Record Input := mk_Input {
  Input_market_data : MarketData;
  Input_client : ClientProfile;
  Input_trade : Trade }.

Definition set_Input_market_data (s : Input) (x : MarketData) : Input :=
  mk_Input x (Input_client s) (Input_trade s).

Definition set_Input_client (s : Input) (x : ClientProfile) : Input :=
  mk_Input (Input_market_data s) x (Input_trade s).

Definition set_Input_trade (s : Input) (x : Trade) : Input :=
  mk_Input (Input_market_data s) (Input_client s) x.

(** the bytes of a value in memory, and a value read from bytes *)
Variable to_u8_slice : Input -> list u8.
Variable from_u8_slice : list u8 -> option Output.

(** compiler-tests/otc/src/lib.rs:14-16 *)
Definition ClientProfile_new (p : Rust.profile) (client_type : ClientType) : option ClientProfile :=
  Some (mk_ClientProfile client_type).

(** compiler-tests/otc/src/lib.rs:119-124 *)
Definition prog_volatility_factor (p : Rust.profile)  : option f32 :=
  let base_annualized_volatilty := (RustGuest.flit 6 10) in
  let daily_annualized_volatility := (RustGuest.flit 47 100) in
  let volatility_ratio := (RustGuest.fdiv daily_annualized_volatility base_annualized_volatilty) in
  Some (RustGuest.fsqrt volatility_ratio).

(** compiler-tests/otc/src/lib.rs:40-46 *)
Definition MarketData_default (p : Rust.profile)  : option MarketData :=
  t1 <- prog_volatility_factor p ;;
  Some (mk_MarketData (RustGuest.flit 10000 10) (RustGuest.flit 1000 10) t1).

(** compiler-tests/otc/src/lib.rs:55-57 *)
Definition Trade_new (p : Rust.profile) (amount : f32) : option Trade :=
  Some (mk_Trade amount).

(** compiler-tests/otc/src/lib.rs:76-82 *)
Definition prog_base_spread (p : Rust.profile) (client_type : ClientType) : option f32 :=
  match client_type with
  | ClientType_INSTITUTIONAL => Some (RustGuest.flit 250 10)
  | ClientType_RETAIL => Some (RustGuest.flit 1000 10)
  | ClientType_PRIME => Some (RustGuest.flit 100 10)
  end.

(** compiler-tests/otc/src/lib.rs:85-101 *)
Definition prog_size_adj (p : Rust.profile) (trade : Trade) (market_data : MarketData) : option f32 :=
  let vol_perc := (RustGuest.fdiv (Trade_amount trade) (MarketData_window_volume market_data)) in
  let size_factor := (RustGuest.flit 10 10) in
  size_factor <- (if (RustGuest.fle vol_perc (RustGuest.flit 1 100))
    then (let t1 : f32 := (RustGuest.flit 10 10) in
      let size_factor := t1 in
      Some size_factor)
    else (if (RustGuest.fle vol_perc (RustGuest.flit 5 100))
      then (let t2 : f32 := (RustGuest.flit 15 10) in
        let size_factor := t2 in
        Some size_factor)
      else (let t3 : f32 := (RustGuest.flit 25 10) in
        let size_factor := t3 in
        Some size_factor))) ;;
  Some size_factor.

(** compiler-tests/otc/src/lib.rs:104-117 *)
Definition prog_volume_disc (p : Rust.profile) (client : ClientType) (volume : f32) : option f32 :=
  match client with
  | ClientType_PRIME | ClientType_INSTITUTIONAL => if (RustGuest.fgt volume (RustGuest.flit 100 10))
  then (Some (RustGuest.flit 7 10))
  else (if (RustGuest.fgt volume (RustGuest.flit 50 10))
    then (Some (RustGuest.flit 9 10))
    else (Some (RustGuest.flit 10 10)))
  | _ => Some (RustGuest.flit 10 10)
  end.

(** compiler-tests/otc/src/lib.rs:126-146 *)
Definition prog_quote (p : Rust.profile) (client : ClientProfile) (trade : Trade) (market_data : MarketData) : option Quote :=
  t1 <- prog_base_spread p (ClientProfile_client_type client) ;;
  let base_spread := t1 in
  t2 <- prog_size_adj p trade market_data ;;
  let size_adj := t2 in
  t3 <- prog_volume_disc p (ClientProfile_client_type client) (Trade_amount trade) ;;
  let vol_adj := t3 in
  let final_spread := (RustGuest.fmul (RustGuest.fmul (RustGuest.fmul base_spread size_adj) vol_adj) (MarketData_volatility_factor market_data)) in
  let spread_usd := (RustGuest.fmul (RustGuest.fdiv final_spread (RustGuest.flit 100000 10)) (MarketData_mid_price market_data)) in
  let spread_half := (RustGuest.fdiv spread_usd (RustGuest.flit 20 10)) in
  let ask_price := (RustGuest.fadd (MarketData_mid_price market_data) spread_half) in
  let bid_price := (RustGuest.fsub (MarketData_mid_price market_data) spread_half) in
  Some (mk_Quote ask_price bid_price).

(** compiler-tests/otc/src/main.rs:26-81 *)
Definition main_main (p : Rust.profile) (fuel : nat) (elf_bytes : (list u8)) : option unit :=
  t1 <- Phantom_from_elf L E H p elf_bytes ;;
  let pz := t1 in
  t2 <- ClientProfile_new p ClientType_PRIME ;;
  let client := t2 in
  t3 <- Trade_new p (RustGuest.flit 50 10) ;;
  let trade := t3 in
  t4 <- MarketData_default p ;;
  let market_data := t4 in
  let input := (mk_Input market_data client trade) in
  t6 <- RustGuest.and_then (env_var H (RustStr.str [77; 65; 88; 95; 67; 89; 67; 76; 69; 83])) (fun v => Some (RustStr.parse_usize v)) ;;
  let max_cycles := (RustStr.unwrap_or t6 (Rust.lit 9000)) in
  t7 <- Phantom_encrypted_vm L E H p pz (to_u8_slice input) max_cycles ;;
  let enc_vm := t7 in
  t8 <- EncryptedVM_execute L E H p fuel enc_vm ;;
  let enc_vm := t8 in
  t9 <- Phantom_test_vm p pz max_cycles ;;
  let testvm := t9 in
  let testvm_input := (to_u8_slice input) in
  t10 <- TestVM_read_input_tape p testvm testvm_input ;;
  let testvm := t10 in
  t11 <- TestVM_execute p fuel testvm ;;
  let testvm := t11 in
  t12 <- TestVM_output_tape p testvm ;;
  let testvm_output_tape := t12 in
  t13 <- from_u8_slice testvm_output_tape ;;
  let testvm_output := t13 in
  '(t14, t15) <- EncryptedVM_output_tape L E H p enc_vm ;;
  let enc_vm := t14 in
  if (RustIter.eq_list testvm_output_tape t15) then let have_quote := (Output_quote testvm_output) in
  t16 <- prog_quote p (Input_client input) (Input_trade input) (Input_market_data input) ;;
  let want_quote := t16 in
  Some tt else None.

End Text.
