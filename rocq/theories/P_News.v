(** Property C96: the same news told by different kinds of market updates. *)
From Verif Require Import Base Types Position OrderBook OrderMargin MarketUpdate Exchange Spec SpecConfig SpecMarket SpecPanic SpecMachine SpecCrash SpecNews Scenario ScenarioPanic ScenarioNews NewsProof NewsFacts.

(** C96: of an update only the quote, the time and the quantity it fills of each resting order matter. *)
Theorem C96_same : forall c e ru ru' f r f' r', valid_config c -> reachable c e -> same_news ru ru' (ex_active e) ->
  step c e (OpUpdate ru) = Done (f, r) -> step c e (OpUpdate ru') = Done (f', r') -> machine_of f' = machine_of f /\ r' = r.
Proof. exact news_same. Qed.
Print Assumptions C96_same.

Example C96_same_case : forall dbg, exists e x f f' u, history (L dbg) bids e x /\ valid_config (L dbg) /\
  same_news (RCandle short_candle) (RSmart [bought 103; sold 98] (quote_in short_candle 5) (ct_pf (c_spec (L dbg)))) (ex_active e) /\
  step (L dbg) e (OpUpdate (RCandle short_candle)) = Done (f, Ok (OutUpdates [u])) /\
  step (L dbg) e (OpUpdate (RSmart [bought 103; sold 98] (quote_in short_candle 5) (ct_pf (c_spec (L dbg))))) = Done (f', Ok (OutUpdates [u])) /\ machine_of f' = machine_of f.
Proof. exact same_case. Qed.

(** C96: a smart candle with one trade is its quote followed by the trade. *)
Theorem C96_one_trade : forall c e t b fl f r, valid_config c -> reachable c e -> fit c b t -> step c e (OpUpdate (RSmart [t] b fl)) = Done (f, Ok r) ->
  exists g, run c e [OpUpdate (RBba b); OpUpdate (RTrade t)] = Done (g, [Ok (OutUpdates []); Ok r]) /\ machine_of g = machine_of f.
Proof. exact news_one_trade. Qed.
Print Assumptions C96_one_trade.

Example C96_one_trade_case : forall dbg, exists e x f g u, history (L dbg) bids e x /\ valid_config (L dbg) /\ fit (L dbg) (quote_in short_candle 3) (sold 98) /\
  step (L dbg) e (OpUpdate (RSmart [sold 98] (quote_in short_candle 3) (ct_pf (c_spec (L dbg))))) = Done (f, Ok (OutUpdates [u])) /\
  run (L dbg) e [OpUpdate (RBba (quote_in short_candle 3)); OpUpdate (RTrade (sold 98))] = Done (g, [Ok (OutUpdates []); Ok (OutUpdates [u])]) /\ position_quantity (ex_pos g) = d 1.
Proof. exact one_trade_case. Qed.

(** C96: with resting orders on one side only, a candle is its quote followed by one trade at its low (for bids) or high (for offers) that is large enough. *)
Theorem C96_candle : forall c e k ts sd t f r, valid_config c -> reachable c e -> sweeps k sd (ex_active e) t -> fit c (quote_in k ts) t -> step c e (OpUpdate (RCandle k)) = Done (f, Ok r) ->
  exists g, run c e [OpUpdate (RBba (quote_in k ts)); OpUpdate (RTrade t)] = Done (g, [Ok (OutUpdates []); Ok r]) /\ machine_of g = machine_of f.
Proof. exact news_candle. Qed.
Print Assumptions C96_candle.

Example C96_candle_case : forall dbg, exists e x f g u, history (L dbg) bids e x /\ valid_config (L dbg) /\ sweeps short_candle Buy (ex_active e) (sold 98) /\ fit (L dbg) (quote_in short_candle 3) (sold 98) /\
  step (L dbg) e (OpUpdate (RCandle short_candle)) = Done (f, Ok (OutUpdates [u])) /\
  run (L dbg) e [OpUpdate (RBba (quote_in short_candle 3)); OpUpdate (RTrade (sold 98))] = Done (g, [Ok (OutUpdates []); Ok (OutUpdates [u])]) /\ position_quantity (ex_pos g) = d 1.
Proof. exact candle_case. Qed.

(** C96: a candle and a smart candle of trades within it that fill every order within it do the same, for any book. *)
Theorem C96_candles : forall c e k l b fl f r f' r', valid_config c -> reachable c e -> covers k l (ex_active e) -> quote_of (RCandle k) = quote_of (RSmart l b fl) -> time_of (RCandle k) = time_of (RSmart l b fl) ->
  step c e (OpUpdate (RCandle k)) = Done (f, r) -> step c e (OpUpdate (RSmart l b fl)) = Done (f', r') -> machine_of f' = machine_of f /\ r' = r.
Proof. exact news_candles. Qed.
Print Assumptions C96_candles.

Example C96_candles_case : forall dbg, exists e x f f' u v w, history (L dbg) both_sides e x /\ valid_config (L dbg) /\ covers long_candle [bought 105; sold 96] (ex_active e) /\
  step (L dbg) e (OpUpdate (RCandle long_candle)) = Done (f, Ok (OutUpdates [u; v; w])) /\
  step (L dbg) e (OpUpdate (RSmart [bought 105; sold 96] (quote_in long_candle 5) (ct_pf (c_spec (L dbg))))) = Done (f', Ok (OutUpdates [u; v; w])) /\ position_quantity (ex_pos f) = d 1.
Proof. exact candles_case. Qed.

(** C96: with orders on both sides a candle is not its quote followed by two large trades: the same orders are filled, but not in the same order, and the account ends with
    another entry price and another balance. *)
Theorem C96_two_sides_refuted : forall dbg, exists e x f r g y, history (L dbg) both_sides e x /\ valid_config (L dbg) /\ step (L dbg) e (OpUpdate (RCandle long_candle)) = Done (f, Ok r) /\
  run (L dbg) e [OpUpdate (RBba (quote_in long_candle 5)); OpUpdate (RTrade (sold 96)); OpUpdate (RTrade (bought 105))] = Done (g, y) /\
  ex_active f = [] /\ ex_active g = [] /\ position_quantity (ex_pos f) = d 1 /\ position_quantity (ex_pos g) = d 1 /\
  position_entry_price (ex_pos f) = d 97 /\ position_entry_price (ex_pos g) = d 98 /\ wealth_of f < wealth_of g.
Proof. exact two_sides_case. Qed.
Print Assumptions C96_two_sides_refuted.
