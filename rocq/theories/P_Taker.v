(** Property C73: a taker account never panics. *)
From Verif Require Import Base Types Accounting Position OrderBook MarketUpdate Exchange Spec SpecConfig SpecPanic SpecMarket SpecMachine SpecCrash SpecCash SpecTaker
  Scenario ScenarioPanic ScenarioTaker TakerProof TakerFacts.

(** C73: with any leverage and either kind of contract, a trader who sends market orders for whole contracts only, at prices at which
    a contract needs some margin, never turns a position around in one order and keeps it at a quantity that may be traded, never
    panics in release builds.  Quotes have to be positive, and trades and candles may only follow while the wallet is not
    negative.  Cancellations and amendments may be tried. *)
Theorem C73_taker_never_panics : forall c ops,
  valid_config c -> c_dbg c = false -> calls_with c (taker_call c) (m_start c) ops ->
  exists e outs, history c ops e outs /\ ex_active e = [] /\ order_margin_of e = 0 /\ (c_scale c | position_quantity (ex_pos e)).
Proof. exact taker_history. Qed.
Print Assumptions C73_taker_never_panics.
(** C73: in debug builds only one assertion can fire, that the margin released by closing is the margin posted. *)
Theorem C73_taker_debug : forall c ops,
  valid_config c -> calls_with c (taker_call c) (m_start c) ops ->
  exists e0, init c = Done e0 /\ forall w, run c e0 ops = Panic w -> w = PCloseMarginDebug.
Proof. exact taker_debug. Qed.
Print Assumptions C73_taker_debug.
(** C73: it does fire, after two purchases at different prices. *)
Theorem C73_debug_refuted : exists c ops o,
  c_dbg c = true /\ calls_with c (taker_call c) (m_start c) (ops ++ [o]) /\ crashes c ops o PCloseMarginDebug.
Proof. exact taker_debug_can. Qed.
Print Assumptions C73_debug_refuted.
(** C73: a trader who neither adds to a position nor closes it in part, but may turn it around, never panics in any build, and the
    margin of the position always is that of its quantity at its entry price. *)
Theorem C73_round_trips : forall c ops,
  valid_config c -> calls_with c (round_call c) (m_start c) ops ->
  exists e outs, history c ops e outs /\ ex_active e = [] /\ order_margin_of e = 0 /\
    position_margin_of e = margin_at c (Z.abs (position_quantity (ex_pos e))) (position_entry_price (ex_pos e)).
Proof. exact round_history. Qed.
Print Assumptions C73_round_trips.

(** C73: each rule is needed, also in release builds.  Turning a position around after adding to it, *)
Theorem C73_one_way_needed : exists c ops o,
  c_dbg c = false /\
  calls_with c (fun m o m' => only_market o /\ well_priced c o /\ solvent m o /\ whole c o /\ heavy c m o /\ closable c o m') (m_start c) (ops ++ [o]) /\
  crashes c ops o PFlipMargin.
Proof. exact one_way_needed. Qed.
Print Assumptions C73_one_way_needed.
(** a position larger than an order may be, *)
Theorem C73_closable_needed : exists c ops o,
  c_dbg c = false /\
  calls_with c (fun m o m' => only_market o /\ well_priced c o /\ solvent m o /\ whole c o /\ heavy c m o /\ one_way m o) (m_start c) (ops ++ [o]) /\
  crashes c ops o PLiquidateSubmit.
Proof. exact closable_needed. Qed.
Print Assumptions C73_closable_needed.
(** a trade after a loss larger than the account, *)
Theorem C73_solvent_needed : exists c ops o,
  c_dbg c = false /\
  calls_with c (fun m o m' => only_market o /\ well_priced c o /\ whole c o /\ heavy c m o /\ one_way m o /\ closable c o m') (m_start c) (ops ++ [o]) /\
  crashes c ops o PWalletNegative.
Proof. exact solvent_needed. Qed.
Print Assumptions C73_solvent_needed.
(** an order at a price at which a contract needs no margin, *)
Theorem C73_heavy_needed : exists c ops o,
  c_dbg c = false /\
  calls_with c (fun m o m' => only_market o /\ well_priced c o /\ solvent m o /\ whole c o /\ one_way m o /\ closable c o m') (m_start c) (ops ++ [o]) /\
  crashes c ops o PTxAmount.
Proof. exact heavy_needed. Qed.
Print Assumptions C73_heavy_needed.
(** a fraction of a contract, *)
Theorem C73_whole_needed : exists c ops o,
  c_dbg c = false /\
  calls_with c (fun m o m' => only_market o /\ well_priced c o /\ solvent m o /\ heavy c m o /\ one_way m o /\ closable c o m') (m_start c) (ops ++ [o]) /\
  crashes c ops o PTxAmount.
Proof. exact whole_needed. Qed.
Print Assumptions C73_whole_needed.
(** a bid of zero *)
Theorem C73_quotes_needed : exists c ops o,
  c_dbg c = false /\
  calls_with c (fun m o m' => only_market o /\ solvent m o /\ whole c o /\ heavy c m o /\ one_way m o /\ closable c o m') (m_start c) (ops ++ [o]) /\
  crashes c ops o PSettlePrice.
Proof. exact quotes_needed. Qed.
Print Assumptions C73_quotes_needed.
(** or a resting order make a call panic. *)
Theorem C73_market_needed : exists c ops o,
  c_dbg c = false /\
  calls_with c (fun m o m' => well_priced c o /\ solvent m o /\ whole c o /\ heavy c m o /\ one_way m o /\ closable c o m') (m_start c) (ops ++ [o]) /\
  crashes c ops o PCancelMargin.
Proof. exact market_needed. Qed.
Print Assumptions C73_market_needed.

(** Two purchases, two sales, a trade and a short position whose liquidation leaves a negative wallet, *)
Example C73_nonvacuous : exists e outs,
  valid_config (lever Linear false None) /\ calls_with (lever Linear false None) (taker_call (lever Linear false None)) (m_start (lever Linear false None)) taker_ops /\
  history (lever Linear false None) taker_ops e outs /\ In (Err (ERisk Liquidate)) outs /\ wallet_of e < 0.
Proof. exact taker_example. Qed.
(** the same with an inverse contract, *)
Example C73_inverse : exists e outs,
  valid_config (lever Inverse false None) /\
  calls_with (lever Inverse false None) (taker_call (lever Inverse false None)) (m_start (lever Inverse false None)) taker_ops /\
  history (lever Inverse false None) taker_ops e outs /\ In (Err (ERisk Liquidate)) outs.
Proof. exact taker_inverse. Qed.
(** and round trips in a debug build. *)
Example C73_round_case : exists e outs,
  valid_config (lever Linear true None) /\ calls_with (lever Linear true None) (round_call (lever Linear true None)) (m_start (lever Linear true None)) round_ops /\
  history (lever Linear true None) round_ops e outs /\ In (Err (ERisk Liquidate)) outs /\ ex_pos e = Neutral.
Proof. exact round_example. Qed.
