(** Amending an order to what it already is. *)
From Verif Require Import Base Types OrderBook OrderMargin MarketUpdate Exchange Spec SpecMachine SpecBatch.

(** What is left of the order, sent as a new order. *)
Definition rest_of (o : limit_order) (uid : Z) : ticket := {| t_side := lo_side o; t_price := lo_price o; t_qty := lo_rem o; t_uid := uid |}.
(** The amendment to the same side, price and total quantity. *)
Definition unchanged (o : limit_order) (uid : Z) : op := OpAmend (lo_id o) (lo_side o) (lo_price o) (lo_rem o + lo_filled_qty o) uid.
(** The order that then rests. *)
Definition renewed (e : exchange) (o : limit_order) (uid : Z) : limit_order :=
  {| lo_uid := uid; lo_side := lo_side o; lo_price := lo_price o; lo_rem := lo_rem o; lo_id := ex_next_id e; lo_ts := ms_ts (ex_ms e); lo_filled := Unfilled |}.
