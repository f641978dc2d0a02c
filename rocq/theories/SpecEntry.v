(** Independent rules for order entry. *)
From Verif Require Import Base Types Filters Accounting Position OrderBook OrderMargin MarketUpdate Tracker Exchange Spec SpecRules.

(** The order as it rests after acceptance. *)
Definition fresh_order (e : exchange) (sd : side) (p q uid : Z) : limit_order :=
  {| lo_uid := uid; lo_side := sd; lo_price := p; lo_rem := q; lo_id := ex_next_id e; lo_ts := ms_ts (ex_ms e);
     lo_filled := Unfilled |}.

(** The order would execute immediately. *)
Definition crosses_quote (e : exchange) (sd : side) (p : Z) : Prop :=
  match sd with Buy => ms_ask (ex_ms e) <= p | Sell => p <= ms_bid (ex_ms e) end.

(** Wallet plus the margin required so far cover the margin required with the order
    (property C16 characterises [order_margin]). *)
Definition affordable (c : config) (e : exchange) (o : limit_order) : Prop :=
  forall r r', order_margin c (ex_active e) (ex_pos e) = Done r ->
    order_margin c (ex_active e ++ [o]) (ex_pos e) = Done r' -> r' <= wallet_of e + r.

(** Quotes and price bands are not negative. *)
Definition sane (c : config) (e : exchange) : Prop :=
  0 <= ms_bid (ex_ms e) /\ 0 <= ms_ask (ex_ms e) /\ 0 <= pf_up (ct_pf (c_spec c)) /\ 0 <= pf_down (ct_pf (c_spec c)).

Definition mark (e : exchange) : Z := Z.quot (ms_bid (ex_ms e) + ms_ask (ex_ms e)) 2.

(** Errors of the two filters (property C33 says which one). *)
Definition quantity_errors : list order_error := [QuantityTooLow; QuantityTooHigh; InvalidQuantityStepSize].
Definition price_errors : list order_error :=
  [LimitPriceBelowMin; LimitPriceAboveMax; InvalidOrderPriceStepSize; LimitPriceAboveMultiple; LimitPriceBelowMultiple].

(** What a limit order of positive price and quantity comes to: the rules are exclusive and cover all cases. *)
Inductive limit_verdict (c : config) (e : exchange) (sd : side) (p q uid : Z) : result error limit_order -> Prop :=
| lv_quantity oe :
    In oe quantity_errors ->    ~ quantity_allowed (ct_qf (c_spec c)) q -> limit_verdict c e sd p q uid (Err (EOrder oe))
| lv_price oe :
    In oe price_errors ->
    quantity_allowed (ct_qf (c_spec c)) q -> ~ price_allowed (c_scale c) (ct_pf (c_spec c)) (mark e) p ->
    limit_verdict c e sd p q uid (Err (EOrder oe))
| lv_funds :
    quantity_allowed (ct_qf (c_spec c)) q -> price_allowed (c_scale c) (ct_pf (c_spec c)) (mark e) p ->
    ~ affordable c e (fresh_order e sd p q uid) ->
    limit_verdict c e sd p q uid (Err (ERisk NotEnoughAvailableBalance))
| lv_cross :
    quantity_allowed (ct_qf (c_spec c)) q -> price_allowed (c_scale c) (ct_pf (c_spec c)) (mark e) p ->
    affordable c e (fresh_order e sd p q uid) -> crosses_quote e sd p ->
    limit_verdict c e sd p q uid (Err (EOrder GoodTillCrossingRejectedOrder))
| lv_full :
    quantity_allowed (ct_qf (c_spec c)) q -> price_allowed (c_scale c) (ct_pf (c_spec c)) (mark e) p ->
    affordable c e (fresh_order e sd p q uid) -> ~ crosses_quote e sd p ->
    c_max c <= Z.of_nat (length (ex_active e)) ->
    limit_verdict c e sd p q uid (Err EMaxNumberOfActiveOrders)
| lv_accept :
    quantity_allowed (ct_qf (c_spec c)) q -> price_allowed (c_scale c) (ct_pf (c_spec c)) (mark e) p ->
    affordable c e (fresh_order e sd p q uid) -> ~ crosses_quote e sd p ->
    Z.of_nat (length (ex_active e)) < c_max c ->
    limit_verdict c e sd p q uid (Ok (fresh_order e sd p q uid)).

(** Nothing a trader can see has changed. *)
Definition unchanged (e e' : exchange) : Prop :=
  ex_acc e' = ex_acc e /\ ex_pos e' = ex_pos e /\ ex_active e' = ex_active e /\ ex_om e' = ex_om e /\ ex_ms e' = ex_ms e.

(** [m] moved from the wallet to the order margin (back if negative), and nothing else. *)
Definition reserved (e e' : exchange) (m : Z) : Prop :=
  wallet_of e' = wallet_of e - m /\ order_margin_of e' = order_margin_of e + m /\
  position_margin_of e' = position_margin_of e /\ fees_paid e' = fees_paid e /\
  ex_pos e' = ex_pos e /\ ex_ms e' = ex_ms e.

(** The order meant by a cancellation. *)
Definition meant (b : cancel_by) (o : limit_order) : Prop :=
  match b with ByOrderId i => lo_id o = i | ByUserOrderId u => lo_uid o = u end.

(** Quantity left open when an order is amended to a total of [q]. *)
Definition leaves_of (o : limit_order) (q : Z) : Z := lo_rem o + (q - (lo_rem o + lo_filled_qty o)).

(** The receipt of a market order. *)
Definition receipt (e : exchange) (sd : side) (q uid p : Z) : filled_market :=
  {| fm_uid := uid; fm_side := sd; fm_qty := q; fm_id := ex_next_id e; fm_ts := ms_ts (ex_ms e);
     fm_exec_ts := ms_ts (ex_ms e); fm_avg := p; fm_filled := q |}.
Definition signed_by (sd : side) (q : Z) : Z := match sd with Buy => q | Sell => - q end.
(** Taker fee of [q] contracts at [p]. *)
Definition taker_fee (c : config) (q p : Z) : Z :=
  Z.quot (value (c_kind c) (c_scale c) q p * ct_taker (c_spec c)) (c_scale c).

(** The statistics differ in the submission counters only, by [n]. *)
Definition only_submissions (t t' : tracker) (n : Z) : Prop :=
  tk_sub_limit t' + tk_sub_market t' = tk_sub_limit t + tk_sub_market t + n /\
  tk_sub_limit t <= tk_sub_limit t' /\ tk_sub_market t <= tk_sub_market t' /\
  tk_start t' = tk_start t /\ tk_cancelled t' = tk_cancelled t /\ tk_fill_events t' = tk_fill_events t /\
  tk_fully_filled t' = tk_fully_filled t /\ tk_filled_market t' = tk_filled_market t /\
  tk_buy_volume t' = tk_buy_volume t /\ tk_sell_volume t' = tk_sell_volume t /\
  tk_price_first t' = tk_price_first t /\ tk_price_last t' = tk_price_last t /\
  tk_ts_first t' = tk_ts_first t /\ tk_ts_last t' = tk_ts_last t /\
  tk_last_balance_sum t' = tk_last_balance_sum t /\ tk_samples t' = tk_samples t.
