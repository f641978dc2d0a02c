(** Property C101: the same market data delivered twice. *)
From Verif Require Import Base Types Position OrderBook OrderMargin MarketUpdate Exchange Spec SpecConfig SpecMarket SpecPanic SpecMachine Scenario ScenarioPanic ScenarioAgain AgainProof AgainFacts.

(** C101: a candle delivered a second time changes nothing, is accepted and reports nothing, unless the fills of the first time have led to a position due for liquidation. *)
Theorem C101_candle : forall c e k f r, valid_config c -> reachable c e -> step c e (OpUpdate (RCandle k)) = Done (f, Ok r) -> ~ due c (ex_pos f) (ms_bid (ex_ms f)) (ms_ask (ex_ms f)) ->
  exists g, step c f (OpUpdate (RCandle k)) = Done (g, Ok (OutUpdates [])) /\ machine_of g = machine_of f.
Proof. exact again_candle. Qed.
Print Assumptions C101_candle.

Example C101_candle_case : forall dbg, exists e x f u g, valid_config (L dbg) /\ history (L dbg) two_bids e x /\ step (L dbg) e (OpUpdate (RCandle dip)) = Done (f, Ok (OutUpdates [u])) /\
  ~ due (L dbg) (ex_pos f) (ms_bid (ex_ms f)) (ms_ask (ex_ms f)) /\ position_quantity (ex_pos f) = d 2 /\ length (ex_active f) = 1%nat /\
  step (L dbg) f (OpUpdate (RCandle dip)) = Done (g, Ok (OutUpdates [])) /\ machine_of g = machine_of f.
Proof. exact again_case. Qed.

(** C101, refuted for trades: a trade delivered twice fills twice. *)
Theorem C101_trade_refuted : forall dbg, exists e x f u g u', valid_config (L dbg) /\ history (L dbg) two_bids e x /\ step (L dbg) e (OpUpdate sale) = Done (f, Ok (OutUpdates [u])) /\
  step (L dbg) f (OpUpdate sale) = Done (g, Ok (OutUpdates [u'])) /\ position_quantity (ex_pos f) = d 1 /\ position_quantity (ex_pos g) = d 2.
Proof. exact sold_twice. Qed.
Print Assumptions C101_trade_refuted.

(** C101, refuted without the condition: the first time the candle fills the orders, the second time it liquidates the position. *)
Theorem C101_crash_refuted : forall dbg, exists e x f u v g, valid_config (L dbg) /\ history (L dbg) two_bids e x /\ step (L dbg) e (OpUpdate (RCandle crash)) = Done (f, Ok (OutUpdates [u; v])) /\
  step (L dbg) f (OpUpdate (RCandle crash)) = Done (g, Err (ERisk Liquidate)) /\ position_quantity (ex_pos f) = d 3 /\ ex_pos g = Neutral.
Proof. exact crash_twice. Qed.
Print Assumptions C101_crash_refuted.

(** C101: market data of any kind that has filled no order changes nothing the second time, is accepted again and reports nothing. *)
Theorem C101_silent : forall c e ru f, valid_config c -> reachable c e -> step c e (OpUpdate ru) = Done (f, Ok (OutUpdates [])) ->
  exists g, step c f (OpUpdate ru) = Done (g, Ok (OutUpdates [])) /\ machine_of g = machine_of f.
Proof. exact again_silent. Qed.
Print Assumptions C101_silent.

Example C101_silent_case : forall dbg, exists e x f g f' g', valid_config (L dbg) /\ history (L dbg) two_bids e x /\ length (ex_active e) = 2%nat /\
  step (L dbg) e (OpUpdate wider) = Done (f, Ok (OutUpdates [])) /\ machine_of f <> machine_of e /\ step (L dbg) f (OpUpdate wider) = Done (g, Ok (OutUpdates [])) /\ machine_of g = machine_of f /\
  step (L dbg) e (OpUpdate purchase) = Done (f', Ok (OutUpdates [])) /\ step (L dbg) f' (OpUpdate purchase) = Done (g', Ok (OutUpdates [])) /\ machine_of g' = machine_of f'.
Proof. exact silent_case. Qed.
