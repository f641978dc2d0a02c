(** Lower fees and more money to start with. *)
From Verif Require Import Base Types Accounting Position OrderMargin MarketUpdate Exchange Spec SpecMarket SpecMachine.

(** The same exchange with other fee rates and [gift] more money to start with. *)
Definition repriced (maker taker gift : Z) (c : config) : config :=
  let x := c_spec c in
  {| c_kind := c_kind c; c_scale := c_scale c; c_dbg := c_dbg c; c_start := c_start c + gift; c_max := c_max c;
     c_spec := {| ct_imr := ct_imr x; ct_mm := ct_mm x; ct_maker := maker; ct_taker := taker; ct_pf := ct_pf x; ct_qf := ct_qf x |};
     c_sample_s := c_sample_s c |}.
(** No higher than in [c]. *)
Definition cheaper (maker taker gift : Z) (c : config) : Prop :=
  maker <= ct_maker (c_spec c) /\ taker <= ct_taker (c_spec c) /\ 0 <= gift.

(** Same quotes, orders, position and margins; fees saved are in the wallet. *)
Definition better_off (gift : Z) (e e' : exchange) : Prop :=
  ms_bid (ex_ms e') = ms_bid (ex_ms e) /\ ms_ask (ex_ms e') = ms_ask (ex_ms e) /\ ms_ts (ex_ms e') = ms_ts (ex_ms e) /\
  ex_next_id e' = ex_next_id e /\ ex_active e' = ex_active e /\
  position_quantity (ex_pos e') = position_quantity (ex_pos e) /\
  position_entry_price (ex_pos e') = position_entry_price (ex_pos e) /\
  position_outstanding_fees (ex_pos e') <= position_outstanding_fees (ex_pos e) /\
  position_margin_of e' = position_margin_of e /\ order_margin_of e' = order_margin_of e /\
  fees_paid e' <= fees_paid e /\
  wallet_of e' = wallet_of e + gift + (fees_paid e - fees_paid e').

(** Panics that lower fees or more money can avoid. *)
Definition avoided : list panic_site := [PWalletNegative; PSettlePrice].

(** The same on the reference machine. *)
Definition m_better (gift : Z) (m m' : machine) : Prop :=
  l_qty (m_book m') = l_qty (m_book m) /\ l_entry (m_book m') = l_entry (m_book m) /\ l_due (m_book m') <= l_due (m_book m) /\
  l_paid (m_book m') <= l_paid (m_book m) /\
  l_cash (m_book m') = l_cash (m_book m) + gift + (l_paid (m_book m) - l_paid (m_book m')) /\
  m_held m' = m_held m /\ m_reserved m' = m_reserved m /\ m_orders m' = m_orders m /\ m_bid m' = m_bid m /\ m_ask m' = m_ask m /\
  m_time m' = m_time m /\ m_next m' = m_next m.
