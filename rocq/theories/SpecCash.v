(** The cash account: a trader without leverage who only sells what is owned and keeps the fees aside. *)
From Verif Require Import Base Types Accounting Position OrderBook OrderMargin MarketUpdate Exchange Spec SpecMarket SpecFlow SpecMargin SpecMachine SpecCrash.

(** Linear contract, leverage 1, maintenance margin fraction 1, fees between zero and the whole value. *)
Definition cash_config (c : config) : Prop :=
  c_kind c = Linear /\ ct_imr (c_spec c) = c_scale c /\ ct_mm (c_spec c) = c_scale c /\
  0 <= ct_maker (c_spec c) <= c_scale c /\ 0 <= ct_taker (c_spec c) <= c_scale c.

(** Quantity offered by the resting sell orders. *)
Definition offered (l : list limit_order) : Z :=
  sumZ (map (fun o => match lo_side o with Buy => 0 | Sell => lo_rem o end) l).
(** Maker fees of the resting buy orders. *)
Definition buy_fees (c : config) (l : list limit_order) : Z :=
  sumZ (map (fun o => match lo_side o with
                      | Buy => fee (c_kind c) (c_scale c)
                                 {| f_side := Buy; f_qty := lo_rem o; f_price := lo_price o; f_rate := ct_maker (c_spec c) |}
                      | Sell => 0 end) l).

(** Nothing is offered that is not owned, and the wallet covers the fees due and those of the resting buys. *)
Definition covered (m : machine) : Prop := offered (m_orders m) <= m_pos m.
Definition provided (c : config) (m : machine) : Prop := Z.max 0 (l_due (m_book m)) + buy_fees c (m_orders m) <= m_free m.

(** Market data without negative bids and without empty trades; smart candles can be built.  In debug builds the
    prices have to pass the filters. *)
Definition fair_data (c : config) (ru : raw_update) : Prop :=
  match quote_of ru with Some (b, _) => 0 <= b | None => True end /\
  match ru with RTrade t => 0 < tr_qty t | RSmart l _ _ => forall t, In t l -> 0 < tr_qty t | _ => True end /\
  build_crash c ru = None /\ (c_dbg c = true -> data_valid (ct_pf (c_spec c)) ru = true).

Definition fair_call (c : config) (o : op) : Prop :=
  match o with OpUpdate ru | OpCheck ru => fair_data c ru | _ => True end.
(** Orders are at prices of at least one. *)
Definition priced_call (c : config) (m : machine) (o : op) : Prop :=
  match o with
  | OpMarket sd _ _ => c_scale c <= m_price m sd
  | OpLimit _ p _ _ | OpAmend _ _ p _ _ => c_scale c <= p
  | _ => True
  end.
Definition places (o : op) : Prop :=
  match o with OpMarket _ _ _ | OpLimit _ _ _ _ | OpAmend _ _ _ _ _ => True | _ => False end.

(** A call that leads from [m] to [m'] leaves the account covered and provided when it places an order; the market is free. *)
Definition cash_call (c : config) (m : machine) (o : op) (m' : machine) : Prop :=
  fair_call c o /\ priced_call c m o /\ (places o -> covered m') /\ (places o -> provided c m').

(** All calls of a sequence obey a rule. *)
Fixpoint calls_with (c : config) (rule : machine -> op -> machine -> Prop) (m : machine) (ops : list op) : Prop :=
  match ops with
  | [] => True
  | o :: r => let m' := fst (m_call c m o) in rule m o m' /\ calls_with c rule m' r
  end.
Definition cash_calls (c : config) (m : machine) (ops : list op) : Prop := calls_with c (cash_call c) m ops.
