(** Properties C04, C15, C39, C40, C45. *)
From Verif Require Import Base Types Position OrderBook OrderMargin Filters MarketUpdate Exchange Spec SpecMargin SpecRules SpecConfig SpecPanic
  SpecMarket SpecEntry Scenario ScenarioPanic ScenarioEntry PanicProof PanicCor SyncProof TotalProof ManyProof PanicFacts.

(** C04: the resting orders stay within the configured number and the list that reserves margin is the
    book itself. *)
Theorem C04_resting_orders_bounded : forall c ops e outs,
  0 <= c_max c <= 10000 -> history c ops e outs ->
  Z.of_nat (length (ex_active e)) <= c_max c /\ ex_om e = ex_active e.
Proof. exact resting_bounded. Qed.
Print Assumptions C04_resting_orders_bounded.

(** C04: no assertion about the agreement of the books ever fires. *)
Theorem C04_book_assertions_hold : forall c e o w,
  valid_config c -> reachable c e -> In w book_sites -> step c e o <> Panic w.
Proof. exact never_book. Qed.
Print Assumptions C04_book_assertions_hold.

(** C15: the reserved margin is never negative and is nil without resting orders. *)
Theorem C15_reserved_margin_bounds : forall c e,
  valid_config c -> reachable c e -> 0 <= order_margin_of e /\ (ex_active e = [] -> order_margin_of e = 0).
Proof. exact (fun c e V R => conj (margin_nonneg c e V R) (empty_no_margin c e V R)). Qed.
Print Assumptions C15_reserved_margin_bounds.

(** C15: order entry keeps the reserved margin equal to the requirement. *)
Theorem C15_entry_keeps_margin : forall c e o e' r,
  valid_config c -> reachable c e -> limit_entry o -> in_sync c e -> step c e o = Done (e', r) -> in_sync c e'.
Proof. exact entry_sync. Qed.
Print Assumptions C15_entry_keeps_margin.

(** C15: so do whole histories of order entry, gentle updates, and market orders and liquidations without
    resting orders. *)
Theorem C15_calm_history_keeps_margin : forall c ops e outs e0,
  valid_config c -> init c = Done e0 -> run c e0 ops = Done (e, outs) -> calm_run c e0 ops -> in_sync c e.
Proof. exact calm_history_sync. Qed.
Print Assumptions C15_calm_history_keeps_margin.

(** C15: debug builds check the equality after every update other than a quote. *)
Theorem C15_debug_checks_margin : forall c e ru e' l,
  c_dbg c = true -> reachable c e -> 0 <= c_max c <= 10000 ->
  step c e (OpUpdate ru) = Done (e', Ok (OutUpdates l)) ->
  match ru with RBba _ => True | _ => in_sync c e' end.
Proof. exact debug_sync. Qed.
Print Assumptions C15_debug_checks_margin.

(** C15 is false in general: a market order that closes a hedged position leaves nothing reserved for the
    resting order, which needs 110. *)
Theorem C15_reserved_margin_refuted : forall dbg, exists e outs,
  history (L dbg) stale_ops e outs /\ valid_config (L dbg) /\ ~ in_sync (L dbg) e /\
  order_margin_of e = 0 /\ order_margin (L dbg) (ex_active e) (ex_pos e) = Done (d 110).
Proof. exact stale_not_synced. Qed.
Print Assumptions C15_reserved_margin_refuted.

(** C39: what order entry can panic with, in full. *)
Theorem C39_entry_panics : forall c e o w,
  valid_config c -> reachable c e -> limit_entry o -> step c e o = Panic w ->
  match o with OpLimit _ _ _ _ => w = PWalletNegative | _ => w = PCancelMargin \/ w = PCancelMarginGrows end.
Proof. exact entry_panics. Qed.
Print Assumptions C39_entry_panics.

(** C39: while the reserved margin equals the requirement submission never panics, and neither does any
    order entry without hedged price ties or rounding. *)
Theorem C39_submission_total : forall c e sd p q uid,
  valid_config c -> reachable c e -> in_sync c e -> exists e' r, step c e (OpLimit sd p q uid) = Done (e', r).
Proof. exact limit_total. Qed.
Print Assumptions C39_submission_total.
Theorem C39_entry_total : forall c e o,
  valid_config c -> reachable c e -> in_sync c e ->
  (ex_pos e = Neutral \/ no_ties (ex_active e) \/
   exists g, exact_book (c_kind c) (c_scale c) g (position_quantity (ex_pos e)) (ex_active e)) ->
  limit_entry o -> exists e' r, step c e o = Done (e', r).
Proof. exact entry_total. Qed.
Print Assumptions C39_entry_total.

(** C39 is false in general: each of the panics happens. *)
Theorem C39_order_entry_refuted :
  crashes (L false) stale_ops (OpLimit Buy (d 90) (d 12) 1) PWalletNegative /\
  crashes (L false) stale_ops (OpCancel (ByUserOrderId 2)) PCancelMargin /\
  crashes (L false) stale_ops (OpAmend 1 Sell (d 111) (d 1) 1) PCancelMargin /\
  crashes (T false) tied_ops (OpCancel (ByOrderId 1)) PCancelMarginGrows /\
  crashes (T false) tied_ops (OpAmend 1 Buy 1 2 1) PCancelMarginGrows.
Proof. exact entry_crashes. Qed.
Print Assumptions C39_order_entry_refuted.

(** C40: the assertions that any call can hit are listed in [sites], and every one of them is hit. *)
Theorem C40_panics_listed : forall c e o w,
  valid_config c -> reachable c e -> step c e o = Panic w -> In w (sites o).
Proof. exact reachable_step_safe. Qed.
Print Assumptions C40_panics_listed.
Theorem C40_list_tight : forall o w,
  is_check o = false -> In w (sites o) -> exists c ops o', same_call o o' /\ crashes c ops o' w.
Proof. exact sites_tight. Qed.
Print Assumptions C40_list_tight.
Theorem C40_other_assertions_hold : forall c e o w,
  valid_config c -> reachable c e -> In w other_sites -> step c e o <> Panic w.
Proof. exact never_other. Qed.
Print Assumptions C40_other_assertions_hold.

(** C40: valid quotes, and valid updates without resting orders, are processed unless a liquidation is
    due (property C41). *)
Theorem C40_quotes_total : forall c e b,
  valid_config c -> reachable c e -> (c_dbg c = false \/ data_ok (ct_pf (c_spec c)) (UBba b)) -> ~ due_after c e (RBba b) ->
  exists e', step c e (OpUpdate (RBba b)) = Done (e', Ok (OutUpdates [])).
Proof. exact quote_total. Qed.
Print Assumptions C40_quotes_total.
Theorem C40_idle_updates_total : forall c e ru u,
  valid_config c -> reachable c e -> build_update (c_dbg c) ru = Done u -> (c_dbg c = false \/ data_ok (ct_pf (c_spec c)) u) ->
  ~ due_after c e ru -> ex_active e = [] -> 0 <= wallet_of e ->
  exists e', step c e (OpUpdate ru) = Done (e', Ok (OutUpdates [])).
Proof. exact idle_total. Qed.
Print Assumptions C40_idle_updates_total.

(** C40: the margin assertions stay silent while the margin is in sync and the update is gentle. *)
Theorem C40_margin_assertions_hold : forall c e ru w,
  valid_config c -> reachable c e -> in_sync c e -> gentle ru e -> step c e (OpUpdate ru) = Panic w -> ~ In w margin_sites.
Proof. exact margin_sites_silent. Qed.
Print Assumptions C40_margin_assertions_hold.

(** C40 is false in general: positive, valid market data makes both builds panic in four ways and the
    debug build in five more. *)
Theorem C40_market_updates_refuted :
  (forall dbg w, In w [PLiquidateSubmit; PWalletNegative; PTxAmount; PFlipMargin] -> honest_crash dbg w) /\
  (forall w, In w [PEndMarginDebug; PFillMarginDebug; PFillMarginGrowsDebug; PMarginToFreeDebug; PCloseMarginDebug] ->
             honest_crash true w).
Proof. exact (conj honest_crashes honest_crashes_debug). Qed.
Print Assumptions C40_market_updates_refuted.

(** C45: up to 10000 configured orders, the error for the limit is returned exactly when the order is
    otherwise fine and the book is full; and a full book takes no order. *)
Theorem C45_limit_exact : forall c e sd p q uid e' r,
  valid_config c -> reachable c e -> sane c e -> 0 < p -> 0 < q -> step c e (OpLimit sd p q uid) = Done (e', r) ->
  (r = Err EMaxNumberOfActiveOrders <->
   quantity_allowed (ct_qf (c_spec c)) q /\ price_allowed (c_scale c) (ct_pf (c_spec c)) (mark e) p /\
   affordable c e (fresh_order e sd p q uid) /\ ~ crosses_quote e sd p /\ Z.of_nat (length (ex_active e)) = c_max c) /\
  (c_max c <= Z.of_nat (length (ex_active e)) -> exists err, r = Err err).
Proof. exact full_exact. Qed.
Print Assumptions C45_limit_exact.

(** C45 is false above 10000: some order is rejected although the limit is not reached, the two books
    disagree afterwards, and then every cancellation panics. *)
Theorem C45_limit_refuted : forall dbg max, 10000 < max -> exists ops e outs e',
  history (many dbg max) ops e outs /\ Z.of_nat (length (ex_active e)) < c_max (many dbg max) /\
  step (many dbg max) e one_buy = Done (e', Err EMaxNumberOfActiveOrders) /\
  ex_om e' <> ex_active e' /\ forall b, step (many dbg max) e' (OpCancel b) = Panic PCancelMargin.
Proof. exact crowd_overflow. Qed.
Print Assumptions C45_limit_refuted.

(** Concrete cases. *)
Example C04_nonvacuous : exists e outs,
  history (L true) uneven_ops e outs /\ length (ex_active e) = 2%nat /\ c_max (L true) = 10.
Proof. exact uneven_rests. Qed.
Example C15_nonvacuous : exists e0 e outs,
  init (L true) = Done e0 /\ run (L true) e0 uneven_ops = Done (e, outs) /\ calm_run (L true) e0 uneven_ops /\
  in_sync (L true) e /\ order_margin_of e = d 90.
Proof. exact uneven_calm. Qed.
Example C40_nonvacuous : exists e outs,
  history (L true) uneven_ops e outs /\ ~ due_after (L true) e (RBba {| bb_bid := d 105; bb_ask := d 106; bb_ts := 2 |}) /\
  good_data (L true) (RBba {| bb_bid := d 105; bb_ask := d 106; bb_ts := 2 |}).
Proof. exact uneven_quote. Qed.
Example C45_nonvacuous : exists e outs e',
  history (many true 2) (many_ops 2) e outs /\ sane (many true 2) e /\
  step (many true 2) e one_buy = Done (e', Err EMaxNumberOfActiveOrders).
Proof. exact many_full. Qed.
Example C45_config_accepted :
  config_new Linear S4 true (d 2000000) 20000 (c_spec (many true 20000)) 10 = Ok (many true 20000).
Proof. reflexivity. Qed.
