(** Properties C49 and C50. *)
From Verif Require Import Base Types OrderBook Position MarketUpdate Exchange Spec SpecBook SpecConfig SpecMarket SpecEntry SpecFlow Scenario
  ScenarioPanic ScenarioHealth HealthProof.

(** C49: after a market update that filled nothing and was not answered by an error, the position is not due for
    liquidation at the new quote. *)
Theorem C49_healthy_after_quiet_update : forall c e ru e',
  valid_config c -> reachable c e -> step c e (OpUpdate ru) = Done (e', Ok (OutUpdates [])) ->
  ~ due c (ex_pos e') (ms_bid (ex_ms e')) (ms_ask (ex_ms e')).
Proof. exact quiet_healthy. Qed.
Print Assumptions C49_healthy_after_quiet_update.

(** C49, refuted with fills: an update that fills resting orders can leave the position due for liquidation at the
    very quote it has just installed, and reports success. *)
Theorem C49_unhealthy_after_fill_refuted : forall dbg, exists e outs e' o,
  valid_config (L dbg) /\ history (L dbg) crash_ops e outs /\ good_data (L dbg) crash_candle /\
  step (L dbg) e (OpUpdate crash_candle) = Done (e', Ok (OutUpdates [FullyFilled o])) /\
  due (L dbg) (ex_pos e') (ms_bid (ex_ms e')) (ms_ask (ex_ms e')).
Proof. exact fill_unhealthy. Qed.
Print Assumptions C49_unhealthy_after_fill_refuted.

(** C49: a position opened by a market order is due for liquidation at once exactly when the spread is wider than the
    maintenance margin; the order is not refused for it. *)
Theorem C49_opened_due : forall c e sd q uid e' f,
  valid_config c -> reachable c e -> ex_pos e = Neutral -> step c e (OpMarket sd q uid) = Done (e', Ok (OutMarket f)) ->
  let bid := ms_bid (ex_ms e') in let ask := ms_ask (ex_ms e') in
  due c (ex_pos e') bid ask <->
  match sd with
  | Buy => (bid + 1) * c_scale c <= ask * (c_scale c - ct_mm (c_spec c))
  | Sell => bid * (c_scale c + ct_mm (c_spec c)) < ask * c_scale c
  end.
Proof. exact opened_due. Qed.
Print Assumptions C49_opened_due.

(** C49, refuted: repeating the quote at which a position was opened can liquidate it. *)
Theorem C49_same_quote_liquidates_refuted : forall dbg, exists e outs e',
  valid_config (L dbg) /\ history (L dbg) wide_ops e outs /\
  step (L dbg) e (quote 40 101 2) = Done (e', Err (ERisk Liquidate)) /\ wealth_of e' + fees_paid e' = c_start (L dbg) - d 61.
Proof. exact spread_unhealthy. Qed.
Print Assumptions C49_same_quote_liquidates_refuted.

(** C50: a market order that closes the position realises exactly the profit shown as unrealised before it, and
    charges the outstanding fees together with its own. *)
Theorem C50_close_realises : forall c e uid e' f,
  valid_config c -> reachable c e ->
  step c e (OpMarket (closing_side (ex_pos e)) (Z.abs (position_quantity (ex_pos e))) uid) = Done (e', Ok (OutMarket f)) ->
  ex_pos e <> Neutral ->
  ex_pos e' = Neutral /\
  wealth_of e' + fees_paid e' = wealth_of e + fees_paid e + open_profit c (ex_pos e) (ms_bid (ex_ms e)) (ms_ask (ex_ms e)) /\
  fees_paid e' - fees_paid e = Z.max 0 (position_outstanding_fees (ex_pos e) + taker_fee c (Z.abs (position_quantity (ex_pos e))) (taker_price e (closing_side (ex_pos e)))).
Proof. exact close_realises. Qed.
Print Assumptions C50_close_realises.

(** Two units bought at 101, closed at 110: 18 of profit, shown before and booked after. *)
Example C50_case :
  match play (L true) [quote 100 101 1; OpMarket Buy (d 2) 1; quote 110 111 2] with
  | Done (e, _) =>
      open_profit (L true) (ex_pos e) (ms_bid (ex_ms e)) (ms_ask (ex_ms e)) = d 18 /\
      match step (L true) e (OpMarket Sell (d 2) 2) with
      | Done (e', Ok (OutMarket _)) => ex_pos e' = Neutral /\ wealth_of e' + fees_paid e' = c_start (L true) + d 18
      | _ => False
      end
  | Panic _ => False
  end.
Proof. vm_compute. repeat split. Qed.
