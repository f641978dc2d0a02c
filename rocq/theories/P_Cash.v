(** Property C65: a cash account never panics. *)
From Verif Require Import Base Types Accounting Position OrderBook MarketUpdate Exchange Spec SpecConfig SpecPanic SpecMachine SpecCrash SpecCash
  Scenario ScenarioPanic ScenarioCash CashProof CashFacts.

(** C65: on a linear contract with leverage 1 and maintenance margin fraction 1, a trader who never offers more than is owned,
    keeps the fees in the wallet and orders at prices of at least one never panics in release builds, whatever the market
    does.  The wallet never is negative, the position never short and never liquidated. *)
Theorem C65_cash_never_panics : forall c ops,
  valid_config c -> cash_config c -> c_dbg c = false -> cash_calls c (m_start c) ops ->
  exists e outs, history c ops e outs /\ 0 <= wallet_of e /\ 0 <= position_quantity (ex_pos e) /\
    offered (ex_active e) <= position_quantity (ex_pos e) /\ ~ In (Err (ERisk Liquidate)) outs.
Proof. exact cash_history. Qed.
Print Assumptions C65_cash_never_panics.
(** C65: in debug builds only one assertion can fire, that the margin released by closing is the margin posted. *)
Theorem C65_cash_debug : forall c ops,
  valid_config c -> cash_config c -> cash_calls c (m_start c) ops ->
  exists e0, init c = Done e0 /\ forall w, run c e0 ops = Panic w -> w = PCloseMarginDebug.
Proof. exact cash_debug. Qed.
Print Assumptions C65_cash_debug.
(** C65: it does fire. *)
Theorem C65_debug_refuted : exists c ops o,
  cash_config c /\ c_dbg c = true /\ cash_calls c (m_start c) (ops ++ [o]) /\ crashes c ops o PCloseMarginDebug.
Proof. exact debug_can. Qed.
Print Assumptions C65_debug_refuted.

(** C65: none of the conditions can be dropped.  With a smaller maintenance margin a liquidation leaves the covered sell
    uncovered and cancelling it panics. *)
Theorem C65_maintenance_needed : exists c ops o,
  c_kind c = Linear /\ ct_imr (c_spec c) = c_scale c /\ 0 < ct_mm (c_spec c) < c_scale c /\ c_dbg c = false /\
  cash_calls c (m_start c) (ops ++ [o]) /\ crashes c ops o PCancelMargin.
Proof. exact maintenance_needed. Qed.
Print Assumptions C65_maintenance_needed.
(** C65: with leverage the wallet becomes negative. *)
Theorem C65_leverage_needed : exists c ops o,
  c_kind c = Linear /\ 0 < ct_imr (c_spec c) < c_scale c /\ ct_mm (c_spec c) = ct_imr (c_spec c) /\ c_dbg c = false /\
  cash_calls c (m_start c) (ops ++ [o]) /\ crashes c ops o PWalletNegative.
Proof. exact leverage_needed. Qed.
Print Assumptions C65_leverage_needed.
(** C65: offering more than is owned, *)
Theorem C65_cover_needed : exists c ops o,
  cash_config c /\ c_dbg c = false /\
  calls_with c (fun m o m' => fair_call c o /\ priced_call c m o /\ (places o -> provided c m')) (m_start c) (ops ++ [o]) /\
  crashes c ops o PCancelMargin.
Proof. exact cover_needed. Qed.
Print Assumptions C65_cover_needed.
(** C65: spending the money for the fees, *)
Theorem C65_fees_needed : exists c ops o,
  cash_config c /\ c_dbg c = false /\
  calls_with c (fun m o m' => fair_call c o /\ priced_call c m o /\ (places o -> covered m')) (m_start c) (ops ++ [o]) /\
  crashes c ops o PWalletNegative.
Proof. exact fees_needed. Qed.
Print Assumptions C65_fees_needed.
(** C65: or ordering at prices below one makes a call panic. *)
Theorem C65_price_needed : exists c ops o,
  cash_config c /\ c_dbg c = false /\
  calls_with c (fun m o m' => fair_call c o /\ (places o -> covered m') /\ (places o -> provided c m')) (m_start c) (ops ++ [o]) /\
  crashes c ops o PTxAmount.
Proof. exact price_needed. Qed.
Print Assumptions C65_price_needed.

(** A cash account with buys, covered sells, an amend, a partial fill, a cancellation and a fall of the price from 100 to 1. *)
Example C65_nonvacuous : exists e outs,
  valid_config (cash_cfg false S4 S4 6) /\ cash_config (cash_cfg false S4 S4 6) /\
  cash_calls (cash_cfg false S4 S4 6) (m_start (cash_cfg false S4 S4 6)) cash_ops /\
  history (cash_cfg false S4 S4 6) cash_ops e outs /\ length outs = 13%nat /\ Forall (fun r => exists x, r = Ok x) outs /\
  wallet_of e = 10630316.
Proof. exact cash_example. Qed.
