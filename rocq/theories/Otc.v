(** * The trading desk guest (compiler-tests/otc)

    The guest quotes a buying and a selling price in single precision
    floating point.  The host repeats the computation
    (compiler-tests/otc/src/lib.rs:76-146) with the same code as the guest
    (compiler-tests/otc/src/guest/src/main.rs:67-142): one definition here
    stands for both.  As in [Guests.v] the Rust source is modelled, not the
    machine code; `f32` is IEEE 754 binary32, rounding to nearest, ties to
    even, as Rust defines it, taken from the standard library's
    [SpecFloat].  Simplified: there is one NaN; which of its bit patterns a
    computation produces is left open by Rust and is the parameter [nan] of
    [to_bits]. *)
Require Import ZArith List Bool.
From Coq Require Import Floats.SpecFloat.
Require Import Verif.Word Verif.Guests.
Import ListNotations.
Open Scope Z_scope.

(** ** `f32` *)
Definition f32 := spec_float.
Definition f_mul : f32 -> f32 -> f32 := SFmul 24 128.
Definition f_div : f32 -> f32 -> f32 := SFdiv 24 128.
Definition f_add : f32 -> f32 -> f32 := SFadd 24 128.
Definition f_sub : f32 -> f32 -> f32 := SFsub 24 128.
Definition f_sqrt : f32 -> f32 := SFsqrt 24 128.
(** `x <= y`, `x > y` *)
Definition f_le : f32 -> f32 -> bool := SFleb.
Definition f_gt (x y : f32) : bool := SFltb y x.
(** The literal n/d (of a decimal literal, [d] is the power of ten): the
    nearest number. *)
Definition lit (n d : Z) : f32 :=
  f_div (binary_normalize 24 128 n 0 false) (binary_normalize 24 128 d 0 false).

(** The number with the given 32 bits, and the bits of a number
    (`f32::from_bits`, `f32::to_bits`; `read_volatile` of a structure with
    f32 fields and the copy of one to the tape, guest/src/main.rs:116-117,
    145-151). *)
Definition of_bits (b : Z) : f32 :=
  let s := b / 2 ^ 31 mod 2 =? 1 in
  let e := b / 2 ^ 23 mod 256 in
  let m := b mod 2 ^ 23 in
  if e =? 255 then if m =? 0 then S754_infinity s else S754_nan
  else if e =? 0 then match m with Zpos p => S754_finite s p (-149) | _ => S754_zero s end
  else match m + 2 ^ 23 with Zpos p => S754_finite s p (e - 150) | _ => S754_nan end.
Definition to_bits (nan : Z) (x : f32) : Z :=
  match x with
  | S754_nan => nan
  | S754_infinity s => b2w s * 2 ^ 31 + 255 * 2 ^ 23
  | S754_zero s => b2w s * 2 ^ 31
  | S754_finite s m e =>
      if Zpos m <? 2 ^ 23 then b2w s * 2 ^ 31 + Zpos m
      else b2w s * 2 ^ 31 + (e + 150) * 2 ^ 23 + (Zpos m - 2 ^ 23)
  end.

(** ** The quote *)
(** src/lib.rs:1-6, src/guest/src/main.rs:13-18 *)
Inductive client := RETAIL | INSTITUTIONAL | PRIME.
(** src/lib.rs:19-27, src/guest/src/main.rs:25-33 *)
Record market := mkMarket { mid_price : f32; window_volume : f32; volatility : f32 }.

(** src/lib.rs:76-82, src/guest/src/main.rs:68-74 *)
Definition base_spread (c : client) : f32 :=
  match c with
  | INSTITUTIONAL => lit 25 1
  | RETAIL => lit 100 1
  | PRIME => lit 10 1
  end.

(** src/lib.rs:85-101, src/guest/src/main.rs:78-94 *)
Definition size_adj (amount : f32) (m : market) : f32 :=
  let vol_perc := f_div amount (window_volume m) in
  if f_le vol_perc (lit 1 100) then lit 1 1
  else if f_le vol_perc (lit 5 100) then lit 15 10
  else lit 25 10.

(** src/lib.rs:104-117, src/guest/src/main.rs:98-111 *)
Definition volume_disc (c : client) (volume : f32) : f32 :=
  match c with
  | PRIME | INSTITUTIONAL =>
      if f_gt volume (lit 10 1) then lit 7 10
      else if f_gt volume (lit 5 1) then lit 9 10
      else lit 1 1
  | RETAIL => lit 1 1
  end.

(** src/lib.rs:126-146, src/guest/src/main.rs:119-142: the asking price and
    the bid. *)
Definition quote (c : client) (amount : f32) (m : market) : f32 * f32 :=
  let final_spread := f_mul (f_mul (f_mul (base_spread c) (size_adj amount m)) (volume_disc c amount)) (volatility m) in
  let spread_usd := f_mul (f_div final_spread (lit 10000 1)) (mid_price m) in
  let spread_half := f_div spread_usd (lit 2 1) in
  (f_add (mid_price m) spread_half, f_sub (mid_price m) spread_half).

(** src/lib.rs:119-124 *)
Definition volatility_factor : f32 := f_sqrt (f_div (lit 47 100) (lit 6 10)).
(** src/lib.rs:39-47 *)
Definition default_market : market := mkMarket (lit 1000 1) (lit 100 1) volatility_factor.

(** ** The tapes
    src/main.rs:14-24, src/guest/src/main.rs:13-56; a `repr(C)` enum without
    fields is a C `int`. *)
Definition otc_input_ty := TStruct [TStruct [TU32; TU32; TU32]; TStruct [TU32]; TStruct [TU32]].
Definition otc_output_ty := TStruct [TStruct [TU32; TU32]].
Definition client_id (c : client) : Z := match c with RETAIL => 0 | INSTITUTIONAL => 1 | PRIME => 2 end.
(** Other values of the enum are undefined behaviour in Rust. *)
Definition client_of (z : Z) : option client :=
  match z with 0 => Some RETAIL | 1 => Some INSTITUTIONAL | 2 => Some PRIME | _ => None end.

Definition otc_input (nan : Z) (c : client) (amount : f32) (m : market) : value :=
  VSeq [VSeq [VInt (to_bits nan (mid_price m)); VInt (to_bits nan (window_volume m)); VInt (to_bits nan (volatility m))];
        VSeq [VInt (client_id c)]; VSeq [VInt (to_bits nan amount)]].
Definition otc_output (nan : Z) (q : f32 * f32) : value :=
  VSeq [VSeq [VInt (to_bits nan (fst q)); VInt (to_bits nan (snd q))]].

(** The guest from tape to tape (src/guest/src/main.rs:113-153); it has no
    panics. *)
Definition otc_guest (nan : Z) (tape : list Z) : option (list Z) :=
  do v <- decode 4 otc_input_ty tape ;
  match v with
  | VSeq [VSeq [VInt mid; VInt win; VInt vol]; VSeq [VInt c]; VSeq [VInt am]] =>
      do c' <- client_of c ;
      Some (encode 4 (fun _ => 0) 0 otc_output_ty
              (otc_output nan (quote c' (of_bits am) (mkMarket (of_bits mid) (of_bits win) (of_bits vol)))))
  | _ => None
  end.

(** The host reads the quote (src/main.rs:10-12, 60). *)
Definition otc_read (tape : list Z) : option (f32 * f32) :=
  do v <- decode 8 otc_output_ty tape ;
  match v with
  | VSeq [VSeq [VInt a; VInt b]] => Some (of_bits a, of_bits b)
  | _ => None
  end.
