(** What an account remembers of its past. *)
From Verif Require Import Base Types Position OrderBook MarketUpdate Exchange Spec SpecMarket SpecMachine SpecCrash.

(** The same configuration with another starting balance. *)
Definition started (c : config) (x : Z) : config :=
  {| c_kind := c_kind c; c_scale := c_scale c; c_dbg := c_dbg c; c_start := x; c_max := c_max c; c_spec := c_spec c; c_sample_s := c_sample_s c |}.

(** The same state after [v] more of fees paid in the past. *)
Definition with_fees (v : Z) (m : machine) : machine :=
  let l := m_book m in
  {| m_book := {| l_qty := l_qty l; l_entry := l_entry l; l_due := l_due l; l_cash := l_cash l; l_paid := l_paid l + v |};
     m_held := m_held m; m_reserved := m_reserved m; m_orders := m_orders m; m_bid := m_bid m; m_ask := m_ask m; m_time := m_time m; m_next := m_next m |}.
Definition so_far {A} (v : Z) (x : outcome (machine * A)) : outcome (machine * A) :=
  match x with Done (m, a) => Done (with_fees v m, a) | Panic w => Panic w end.

(** No position and no orders. *)
Definition flat (e : exchange) : Prop := ex_pos e = Neutral /\ ex_active e = [].
(** The same quote, time and next order id. *)
Definition same_moment (e e' : exchange) : Prop :=
  ms_bid (ex_ms e) = ms_bid (ex_ms e') /\ ms_ask (ex_ms e) = ms_ask (ex_ms e') /\ ms_ts (ex_ms e) = ms_ts (ex_ms e') /\ ex_next_id e = ex_next_id e'.
