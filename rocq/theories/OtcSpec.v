(** * What the trading desk should quote

    Prices, volumes and volatilities are integers in units of 2^-149 (see
    [FloatSpec]); the figures of the price list are exact. *)
Require Import ZArith Bool.
Require Import Verif.FloatSpec Verif.Otc.
Open Scope Z_scope.

(** basis points *)
Definition spread_of (c : client) : Z :=
  match c with RETAIL => 100 | INSTITUTIONAL => 25 | PRIME => 10 end.

(** Tenths: by the size of the trade, [a] out of a day's [w] > 0: up to one
    percent, up to five, more. *)
Definition size_of (a w : Z) : Z :=
  if 100 * a <=? w then 10 else if 20 * a <=? w then 15 else 25.

(** Tenths: by the volume, for all but retail. *)
Definition discount_of (c : client) (a : Z) : Z :=
  match c with
  | RETAIL => 10
  | _ => if a >? 10 * unit then 7 else if a >? 5 * unit then 9 else 10
  end.

(** The exact prices times [scale], for the given factors in tenths: half of
    the spread, which is in basis points, on either side of the mid price. *)
Definition scale : Z := unit * 2000000.
Definition exact_half (c : client) (size disc vol mid : Z) : Z :=
  spread_of c * size * disc * vol * mid.
Definition exact_ask (c : client) (size disc vol mid : Z) : Z :=
  mid * scale + exact_half c size disc vol mid.
Definition exact_bid (c : client) (size disc vol mid : Z) : Z :=
  mid * scale - exact_half c size disc vol mid.
