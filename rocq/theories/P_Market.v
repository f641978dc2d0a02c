(** Properties C08, C09, C21, C28, C29, C35, C41, C43. *)
From Coq Require Import Permutation.
From Verif Require Import Base Types Position OrderBook MarketUpdate Exchange Spec SpecBook SpecRules SpecConfig SpecMarket
  Scenario ScenarioPanic MarketProof LiqProof TotalProof MarketFacts.

(** C08: an update reports exactly the orders that [touched] says are crossed, in book order and for
    exactly that quantity; the book and the account change by exactly these fills, at the limit price
    and the maker fee; and each quantity is positive and at most what remained. *)
Theorem C08_fills_exact : forall c e ru e' l,
  valid_config c -> reachable c e -> step c e (OpUpdate ru) = Done (e', Ok (OutUpdates l)) ->
  l = reports (c_scale c) ru (ex_active e) /\
  Permutation (ex_active e') (apply_updates l (ex_active e)) /\
  statement_of e' = fold_left (apply_fill (c_kind c) (c_scale c)) (caused c ru (ex_active e)) (statement_of e) /\
  (forall o q, In o (ex_active e) -> touched ru o = Some q -> 0 < q <= lo_rem o).
Proof. exact update_exact. Qed.
Print Assumptions C08_fills_exact.

(** C08: asked directly, a trade or candle refuses to look at an order or a trade without quantity in debug builds only, and
    a quote always refuses. *)
Theorem C08_fill_assertions : forall dbg u o, (exists w, limit_order_filled dbg u o = Panic w) <->
  match u with
  | UBba _ => True
  | UTrade t => dbg = true /\ (tr_qty t <= 0 \/ lo_rem o <= 0)
  | UCandle _ => dbg = true /\ lo_rem o <= 0
  | USmart _ => False
  end.
Proof. exact fill_assertions. Qed.
Print Assumptions C08_fill_assertions.

(** C09: a quote update leaves the orders alone, and everything else too unless it liquidates. *)
Theorem C09_quotes_never_touch_orders : forall c e b e' r,
  step c e (OpUpdate (RBba b)) = Done (e', r) ->
  ex_active e' = ex_active e /\
  ((r = Ok (OutUpdates []) /\ ex_acc e' = ex_acc e /\ ex_pos e' = ex_pos e) \/ r = Err (ERisk Liquidate)).
Proof. exact quote_inert. Qed.
Print Assumptions C09_quotes_never_touch_orders.

(** C21: the update liquidates exactly when the position is due at the new quote; the whole position is
    then closed at that quote for the taker fee, and the orders stay. *)
Theorem C21_liquidation_exact : forall c e ru e' r,
  valid_config c -> reachable c e -> step c e (OpUpdate ru) = Done (e', r) ->
  (due_after c e ru -> r = Err (ERisk Liquidate) /\ ex_pos e' = Neutral /\ ex_active e' = ex_active e /\
     statement_of e' = apply_fill (c_kind c) (c_scale c) (statement_of e) (closing_fill c e ru) /\
     0 < f_price (closing_fill c e ru) /\ order_margin_of e' = order_margin_of e) /\
  (~ due_after c e ru -> exists l, r = Ok (OutUpdates l)).
Proof. exact liquidation_exact. Qed.
Print Assumptions C21_liquidation_exact.

(** C21: the threshold of a long is [entry * (1 - mm)] where that number is representable, and otherwise
    less than one unit of the last decimal place below it. *)
Theorem C21_long_threshold : forall c i bid ask,
  0 < c_scale c ->
  ((c_scale c | pi_entry i * (c_scale c - ct_mm (c_spec c))) ->
     due c (Long i) bid ask <-> bid * c_scale c < pi_entry i * (c_scale c - ct_mm (c_spec c))) /\
  (due c (Long i) bid ask -> bid * c_scale c < pi_entry i * (c_scale c - ct_mm (c_spec c))) /\
  ((bid + 1) * c_scale c <= pi_entry i * (c_scale c - ct_mm (c_spec c)) -> due c (Long i) bid ask).
Proof. exact (fun c i b a Hs => conj (due_long_exact c i b a Hs) (due_long_bounds c i b a Hs)). Qed.
Print Assumptions C21_long_threshold.

(** C28: a candle made of trades fills against exactly the crossing volume. *)
Theorem C28_smart_candle_exact : forall dbg l b f sc o,
  smart_candle_new dbg l b f = Done sc ->
  smart_fills sc o = if existsb (crosses o) l then Some (Z.min (crossing_qty o l) (lo_rem o)) else None.
Proof. exact smart_exact. Qed.
Print Assumptions C28_smart_candle_exact.

(** C29: feeding the trades one by one, in any order, fills as much. *)
Theorem C29_smart_candle_sequential : forall dbg dbg' s l l' b f sc o,
  smart_candle_new dbg l b f = Done sc -> Permutation l l' -> (forall t, In t l -> 0 < tr_qty t) ->
  0 < lo_rem o -> 0 <= lo_filled_qty o ->
  feed dbg' s o l' = Done (match smart_fills sc o with Some q => q | None => 0 end).
Proof. exact smart_sequential. Qed.
Print Assumptions C29_smart_candle_sequential.

(** C35: quote, time and step count are those of the updates made so far. *)
Theorem C35_market_state_mirrors : forall c ops e outs,
  0 <= c_max c <= 10000 -> history c ops e outs ->
  ms_bid (ex_ms e) = fst (last_quote ops) /\ ms_ask (ex_ms e) = snd (last_quote ops) /\
  ms_ts (ex_ms e) = last_time ops /\ ms_step (ex_ms e) = count_updates ops.
Proof. exact market_mirrors. Qed.
Print Assumptions C35_market_state_mirrors.

(** C35: order calls leave the market state alone. *)
Theorem C35_orders_keep_market : forall c e o e' r,
  0 <= c_max c <= 10000 -> reachable c e -> step c e o = Done (e', r) ->
  match o with OpUpdate _ => ms_step (ex_ms e') = ms_step (ex_ms e) + 1 | _ => ex_ms e' = ex_ms e end.
Proof. exact orders_keep_market. Qed.
Print Assumptions C35_orders_keep_market.

(** C41: a due liquidation succeeds exactly when the quantity filter admits the position size, the
    closing price and the margin to free are positive and, in debug builds, nothing remains of the
    position margin. *)
Theorem C41_liquidation_completes : forall c e ru u,
  valid_config c -> reachable c e -> build_update (c_dbg c) ru = Done u -> (c_dbg c = false \/ data_ok (ct_pf (c_spec c)) u) ->
  due_after c e ru ->
  let f := closing_fill c e ru in
  let m := margin_at c (f_qty f) (position_entry_price (ex_pos e)) in
  (exists e', step c e (OpUpdate ru) = Done (e', Err (ERisk Liquidate))) <->
  quantity_allowed (ct_qf (c_spec c)) (f_qty f) /\ 0 < f_price f /\ 0 < m /\ (c_dbg c = true -> pm_of e = m).
Proof. exact liquidation_completes. Qed.
Print Assumptions C41_liquidation_completes.
Theorem C41_liquidation_blocked : forall c e ru u,
  valid_config c -> reachable c e -> build_update (c_dbg c) ru = Done u -> (c_dbg c = false \/ data_ok (ct_pf (c_spec c)) u) ->
  due_after c e ru -> ~ quantity_allowed (ct_qf (c_spec c)) (Z.abs (position_quantity (ex_pos e))) ->
  step c e (OpUpdate ru) = Panic PLiquidateSubmit.
Proof. exact liquidation_blocked. Qed.
Print Assumptions C41_liquidation_blocked.

(** C41 is false in general: two purchases of the largest allowed quantity cannot be liquidated. *)
Theorem C41_liquidation_refuted : forall dbg, exists e outs ru,
  valid_config (capped dbg) /\ history (capped dbg) (one_long ++ [OpMarket Buy (d 1) 1]) e outs /\
  good_data (capped dbg) ru /\ due_after (capped dbg) e ru /\ step (capped dbg) e (OpUpdate ru) = Panic PLiquidateSubmit.
Proof. exact liquidation_refuted. Qed.
Print Assumptions C41_liquidation_refuted.

(** C43: each fill is at most the trade's quantity, the total is the sum over the crossed orders, so it
    respects the trade's quantity when at most one order is crossed. *)
Theorem C43_trade_fills : forall c e t e' l,
  valid_config c -> reachable c e -> step c e (OpUpdate (RTrade t)) = Done (e', Ok (OutUpdates l)) ->
  statement_of e' = fold_left (apply_fill (c_kind c) (c_scale c)) (caused c (RTrade t) (ex_active e)) (statement_of e) /\
  (forall f, In f (caused c (RTrade t) (ex_active e)) -> f_qty f <= tr_qty t) /\
  sumZ (map f_qty (caused c (RTrade t) (ex_active e))) =
    sumZ (map (fun o => Z.min (tr_qty t) (lo_rem o)) (filter (fun o => crosses o t) (ex_active e))) /\
  ((length (filter (fun o => crosses o t) (ex_active e)) <= 1)%nat ->
   sumZ (map f_qty (caused c (RTrade t) (ex_active e))) <= Z.max 0 (tr_qty t)).
Proof. exact trade_fills. Qed.
Print Assumptions C43_trade_fills.

(** C43 is false in general: one sell of 1 fills two buys of 1. *)
Theorem C43_trade_overfill_refuted : forall dbg, exists e outs e' l,
  history (L dbg) two_buys e outs /\ step (L dbg) e (OpUpdate (RTrade one_sell)) = Done (e', Ok (OutUpdates l)) /\
  position_quantity (ex_pos e) = 0 /\ tr_qty one_sell = d 1 /\ position_quantity (ex_pos e') = d 2.
Proof. exact trade_overfills. Qed.
Print Assumptions C43_trade_overfill_refuted.

(** Concrete cases. *)
Example C08_nonvacuous : exists e outs e' o,
  history (L true) two_buys e outs /\
  step (L true) e (OpUpdate (RTrade {| tr_price := d 91; tr_qty := 4000; tr_side := Sell; tr_ts := 2 |}))
    = Done (e', Ok (OutUpdates [PartiallyFilled o])) /\ lo_price o = d 95 /\ lo_rem o = 6000 /\ length (ex_active e') = 2%nat.
Proof. exact partial_fill. Qed.
Example C21_nonvacuous : exists e outs e',
  history (L true) one_long e outs /\
  due_after (L true) e (RBba {| bb_bid := d 40; bb_ask := d 41; bb_ts := 3 |}) /\
  ~ due_after (L true) e (RBba {| bb_bid := d 51; bb_ask := d 52; bb_ts := 3 |}) /\
  step (L true) e (OpUpdate (RBba {| bb_bid := d 40; bb_ask := d 41; bb_ts := 3 |})) = Done (e', Err (ERisk Liquidate)).
Proof. exact liquidates. Qed.
Example C28_C29_nonvacuous : exists sc,
  let t p q := {| tr_price := d p; tr_qty := d q; tr_side := Sell; tr_ts := 9 |} in
  let o := {| lo_uid := 0; lo_side := Buy; lo_price := d 98; lo_rem := d 9; lo_id := 0; lo_ts := 0; lo_filled := Unfilled |} in
  smart_candle_new true [t 99 1; t 97 2; t 98 4; t 96 3] {| bb_bid := d 96; bb_ask := d 97; bb_ts := 9 |} demo_pf = Done sc /\
  smart_fills sc o = Some (d 5) /\ feed true S4 o [t 99 1; t 97 2; t 98 4; t 96 3] = Done (d 5).
Proof. eexists. split; [reflexivity|]. split; reflexivity. Qed.
Example C35_nonvacuous : exists e outs,
  history (L true) (two_buys ++ [OpUpdate (RTrade one_sell)]) e outs /\
  last_quote (two_buys ++ [OpUpdate (RTrade one_sell)]) = (d 100, d 101) /\ ms_bid (ex_ms e) = d 100 /\
  last_time (two_buys ++ [OpUpdate (RTrade one_sell)]) = 2 /\ count_updates (two_buys ++ [OpUpdate (RTrade one_sell)]) = 2.
Proof. exact mirrored. Qed.
