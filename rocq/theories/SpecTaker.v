(** The taker account: whole contracts, market orders only, never from long to short in one order.  Any leverage, both kinds of contract. *)
From Verif Require Import Base Types Accounting Position OrderBook OrderMargin MarketUpdate Exchange Spec SpecMarket SpecFlow SpecMargin SpecMachine SpecCrash.

(** One contract at this price needs a margin of at least one unit. *)
Definition weighty (c : config) (p : Z) : Prop := 0 < p /\ 0 < margin_at c (c_scale c) p.
(** A quantity that may be traded, or nothing. *)
Definition tradable (c : config) (n : Z) : Prop := n = 0 \/ quantity_fault (ct_qf (c_spec c)) (Z.abs n) = None.
(** The order does not go beyond the opposite position. *)
Definition no_flip (n : Z) (sd : side) (q : Z) : Prop :=
  match sd with Buy => n < 0 -> q <= - n | Sell => 0 < n -> q <= n end.

(** Quotes are positive and smart candles can be built; in debug builds prices have to pass the filters. *)
Definition priced_data (c : config) (ru : raw_update) : Prop :=
  match quote_of ru with Some (b, a) => 0 < b /\ 0 < a | None => True end /\
  build_crash c ru = None /\ (c_dbg c = true -> data_valid (ct_pf (c_spec c)) ru = true).
(** Trades and candles make the exchange look at the wallet. *)
Definition solvent_for (m : machine) (ru : raw_update) : Prop := match ru with RBba _ => True | _ => 0 <= m_free m end.

(** The rules one by one, for a call that leads from [m] to [m']. *)
Definition only_market (o : op) : Prop := match o with OpLimit _ _ _ _ => False | _ => True end.
Definition well_priced (c : config) (o : op) : Prop := match o with OpUpdate ru | OpCheck ru => priced_data c ru | _ => True end.
Definition solvent (m : machine) (o : op) : Prop := match o with OpUpdate ru | OpCheck ru => solvent_for m ru | _ => True end.
Definition whole (c : config) (o : op) : Prop := match o with OpMarket _ q _ => (c_scale c | q) | _ => True end.
Definition heavy (c : config) (m : machine) (o : op) : Prop := match o with OpMarket sd _ _ => weighty c (m_price m sd) | _ => True end.
Definition one_way (m : machine) (o : op) : Prop := match o with OpMarket sd q _ => no_flip (m_pos m) sd q | _ => True end.
Definition closable (c : config) (o : op) (m' : machine) : Prop := match o with OpMarket _ _ _ => tradable c (m_pos m') | _ => True end.

Definition taker_call (c : config) (m : machine) (o : op) (m' : machine) : Prop :=
  only_market o /\ well_priced c o /\ solvent m o /\ whole c o /\ heavy c m o /\ one_way m o /\ closable c o m'.

(** Orders that open, close the whole position or turn it around; none that adds or closes in part. *)
Definition round_trip (m : machine) (o : op) : Prop :=
  match o with
  | OpMarket Buy q _ => m_pos m = 0 \/ (m_pos m < 0 /\ - m_pos m <= q)
  | OpMarket Sell q _ => m_pos m = 0 \/ (0 < m_pos m /\ m_pos m <= q)
  | _ => True
  end.
Definition round_call (c : config) (m : machine) (o : op) (m' : machine) : Prop :=
  only_market o /\ well_priced c o /\ solvent m o /\ whole c o /\ heavy c m o /\ round_trip m o /\ closable c o m'.
