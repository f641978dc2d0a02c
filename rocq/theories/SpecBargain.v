(** What an account is worth, for comparing executions at different prices. *)
From Verif Require Import Base Types Position MarketUpdate Exchange Spec SpecConfig SpecMarket.

(** Money of the user if the position was valued at price [m], after paying the fees due. *)
Definition worth (c : config) (m : Z) (e : exchange) : Z :=
  let n := position_quantity (ex_pos e) in
  wealth_of e + Z.sgn n * gain (c_kind c) (c_scale c) (Z.abs n) (position_entry_price (ex_pos e)) m - Z.max (position_outstanding_fees (ex_pos e)) 0.

(** What a market order pays or gets per contract. *)
Definition deal (e : exchange) (sd : side) : Z := match sd with Buy => ms_ask (ex_ms e) | Sell => ms_bid (ex_ms e) end.
(** [a] is at least as good a price as [b]. *)
Definition no_worse (sd : side) (a b : Z) : Prop := match sd with Buy => a <= b | Sell => b <= a end.

(** The order opens a position, or closes no more than there is. *)
Definition opens_or_reduces (e : exchange) (sd : side) (q : Z) : Prop :=
  let n := position_quantity (ex_pos e) in n = 0 \/ match sd with Buy => q <= - n | Sell => q <= n end.

(** A better price makes the value of the contracts smaller. *)
Definition smaller_is_better (k : kind) (sd : side) : Prop := match k, sd with Linear, Buy | Inverse, Sell => True | _, _ => False end.
