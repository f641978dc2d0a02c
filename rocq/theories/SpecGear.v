(** The same account with another leverage. *)
From Verif Require Import Base Types Accounting Position OrderBook OrderMargin MarketUpdate Exchange Spec SpecMarket SpecMargin SpecMachine.

(** Another initial and maintenance margin, everything else the same. *)
Definition geared (imr mm : Z) (c : config) : config :=
  let x := c_spec c in
  {| c_kind := c_kind c; c_scale := c_scale c; c_dbg := c_dbg c; c_start := c_start c; c_max := c_max c;
     c_spec := {| ct_imr := imr; ct_mm := mm; ct_maker := ct_maker x; ct_taker := ct_taker x; ct_pf := ct_pf x; ct_qf := ct_qf x |};
     c_sample_s := c_sample_s c |}.
(** A higher leverage: both margins are no larger. *)
Definition more_leverage (imr mm : Z) (c : config) : Prop := imr <= ct_imr (c_spec c) /\ mm <= ct_mm (c_spec c).

(** Everything but the margins: market, orders, position, total balance, fees. *)
Definition same_but_margins (e e' : exchange) : Prop :=
  ms_bid (ex_ms e') = ms_bid (ex_ms e) /\ ms_ask (ex_ms e') = ms_ask (ex_ms e) /\ ms_ts (ex_ms e') = ms_ts (ex_ms e) /\
  ex_active e' = ex_active e /\ ex_next_id e' = ex_next_id e /\
  position_quantity (ex_pos e') = position_quantity (ex_pos e) /\ position_entry_price (ex_pos e') = position_entry_price (ex_pos e) /\
  position_outstanding_fees (ex_pos e') = position_outstanding_fees (ex_pos e) /\
  wealth_of e' = wealth_of e /\ fees_paid e' = fees_paid e.

(** Answers agree in what was accepted, and in all details of it. *)
Definition accepted {A} (r : result error A) : bool := match r with Ok _ => true | Err _ => false end.
Definition same_answer (r r' : result error out) : Prop :=
  match r, r' with Ok x, Ok y => x = y | Err _, Err _ => True | _, _ => False end.

(** The reserved margin is what the orders need. *)
Definition reserved_right (c : config) (e : exchange) : Prop :=
  order_margin_of e = need c (ex_active e) (position_quantity (ex_pos e)).

(** Not the answer to an update that liquidated the position. *)
Definition unliquidated (r : result error out) : bool := match r with Err (ERisk Liquidate) => false | _ => true end.
