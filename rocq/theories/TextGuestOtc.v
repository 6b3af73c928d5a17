(** * The guest otc, translated

    Generated by tools/gen_guest.py from compiler-tests/otc/src/guest/src/main.rs.
    Do not edit.  The operators are those of Rust.v, RustIter.v, RustStr.v and RustGuest.v. *)
Require Import ZArith List Bool.
From Verif Require Import Rust RustIter RustStr RustGuest.
Import ListNotations.
Open Scope Z_scope.
Local Notation u8 := (Rust.int Rust.U8).
Local Notation u16 := (Rust.int Rust.U16).
Local Notation u32 := (Rust.int Rust.U32).
Local Notation u64 := (Rust.int Rust.U64).
Local Notation usize := (Rust.int Rust.USize).
Local Notation i32 := (Rust.int Rust.I32).
Local Notation i64 := (Rust.int Rust.I64).

Section Text.

(** compiler-tests/otc/src/guest/src/main.rs:14-18 *)
Inductive ClientType := | ClientType_RETAIL | ClientType_INSTITUTIONAL | ClientType_PRIME.

(** compiler-tests/otc/src/guest/src/main.rs:26-33 *)
Record MarketData := mk_MarketData {
  MarketData_mid_price : f32;
  MarketData_window_volume : f32;
  MarketData_volatility_factor : f32 }.

Definition set_MarketData_mid_price (s : MarketData) (x : f32) : MarketData :=
  mk_MarketData x (MarketData_window_volume s) (MarketData_volatility_factor s).

Definition set_MarketData_window_volume (s : MarketData) (x : f32) : MarketData :=
  mk_MarketData (MarketData_mid_price s) x (MarketData_volatility_factor s).

Definition set_MarketData_volatility_factor (s : MarketData) (x : f32) : MarketData :=
  mk_MarketData (MarketData_mid_price s) (MarketData_window_volume s) x.

(** compiler-tests/otc/src/guest/src/main.rs:36-38 *)
Record Trade := mk_Trade {
  Trade_amount : f32 }.

Definition set_Trade_amount (s : Trade) (x : f32) : Trade :=
  mk_Trade x.

(** compiler-tests/otc/src/guest/src/main.rs:41-44 *)
Record Quote := mk_Quote {
  Quote_ask_price : f32;
  Quote_bid_price : f32 }.

Definition set_Quote_ask_price (s : Quote) (x : f32) : Quote :=
  mk_Quote x (Quote_bid_price s).

Definition set_Quote_bid_price (s : Quote) (x : f32) : Quote :=
  mk_Quote (Quote_ask_price s) x.

(** compiler-tests/otc/src/guest/src/main.rs:21-23 *)
Record ClientProfile := mk_ClientProfile {
  ClientProfile_client_type : ClientType }.

Definition set_ClientProfile_client_type (s : ClientProfile) (x : ClientType) : ClientProfile :=
  mk_ClientProfile x.

(** compiler-tests/otc/src/guest/src/main.rs:47-49 *)
Record Output := mk_Output {
  Output_quote : Quote }.

Definition set_Output_quote (s : Output) (x : Quote) : Output :=
  mk_Output x.

(** compiler-tests/otc/src/guest/src/main.rs:52-56 *)
Record Input := mk_Input {
  Input_market_data : MarketData;
  Input_client : ClientProfile;
  Input_trade : Trade }.

Definition set_Input_market_data (s : Input) (x : MarketData) : Input :=
  mk_Input x (Input_client s) (Input_trade s).

Definition set_Input_client (s : Input) (x : ClientProfile) : Input :=
  mk_Input (Input_market_data s) x (Input_trade s).

Definition set_Input_trade (s : Input) (x : Trade) : Input :=
  mk_Input (Input_market_data s) (Input_client s) x.

(** compiler-tests/otc/src/guest/src/main.rs:68-74 *)
Definition guest_base_spread (p : Rust.profile) (client_type : ClientType) : option f32 :=
  match client_type with
  | ClientType_INSTITUTIONAL => Some (RustGuest.flit 250 10)
  | ClientType_RETAIL => Some (RustGuest.flit 1000 10)
  | ClientType_PRIME => Some (RustGuest.flit 100 10)
  end.

(** compiler-tests/otc/src/guest/src/main.rs:78-94 *)
Definition guest_size_adj (p : Rust.profile) (trade : Trade) (market_data : MarketData) : option f32 :=
  let vol_perc := (RustGuest.fdiv (Trade_amount trade) (MarketData_window_volume market_data)) in
  let size_factor := (RustGuest.flit 10 10) in
  size_factor <- (if (RustGuest.fle vol_perc (RustGuest.flit 1 100))
    then (let t1 : f32 := (RustGuest.flit 10 10) in
      let size_factor := t1 in
      Some size_factor)
    else (if (RustGuest.fle vol_perc (RustGuest.flit 5 100))
      then (let t2 : f32 := (RustGuest.flit 15 10) in
        let size_factor := t2 in
        Some size_factor)
      else (let t3 : f32 := (RustGuest.flit 25 10) in
        let size_factor := t3 in
        Some size_factor))) ;;
  Some size_factor.

(** compiler-tests/otc/src/guest/src/main.rs:98-111 *)
Definition guest_volume_disc (p : Rust.profile) (client : ClientType) (volume : f32) : option f32 :=
  match client with
  | ClientType_PRIME | ClientType_INSTITUTIONAL => if (RustGuest.fgt volume (RustGuest.flit 100 10))
  then (Some (RustGuest.flit 7 10))
  else (if (RustGuest.fgt volume (RustGuest.flit 50 10))
    then (Some (RustGuest.flit 9 10))
    else (Some (RustGuest.flit 10 10)))
  | _ => Some (RustGuest.flit 10 10)
  end.

(** compiler-tests/otc/src/guest/src/main.rs:114-145 *)
Definition guest_main (p : Rust.profile) (input : Input) : option Output :=
  let market_data := (Input_market_data input) in
  let client := (Input_client input) in
  let trade := (Input_trade input) in
  t1 <- guest_base_spread p (ClientProfile_client_type client) ;;
  let base_spread := t1 in
  t2 <- guest_size_adj p trade market_data ;;
  let size_adj := t2 in
  t3 <- guest_volume_disc p (ClientProfile_client_type client) (Trade_amount trade) ;;
  let vol_adj := t3 in
  let final_spread := (RustGuest.fmul (RustGuest.fmul (RustGuest.fmul base_spread size_adj) vol_adj) (MarketData_volatility_factor market_data)) in
  let spread_usd := (RustGuest.fmul (RustGuest.fdiv final_spread (RustGuest.flit 100000 10)) (MarketData_mid_price market_data)) in
  let spread_half := (RustGuest.fdiv spread_usd (RustGuest.flit 20 10)) in
  let ask_price := (RustGuest.fadd (MarketData_mid_price market_data) spread_half) in
  let bid_price := (RustGuest.fsub (MarketData_mid_price market_data) spread_half) in
  let quote := (mk_Quote ask_price bid_price) in
  let output_str := (mk_Output quote) in
  Some output_str.

End Text.
