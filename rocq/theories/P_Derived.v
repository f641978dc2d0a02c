(** Property C78: the derived statistics, the loading of trades and the currency helpers on machine integers. *)
From Verif Require Import Base Types Accounting OrderMargin Exchange Spec SpecConfig SpecTrack SpecStats SpecBound Scenario ScenarioPanic
  MarketUpdate Tracker Currency Stats Helpers Data Width Fixed SpecFixed SpecFits SpecNeeds Derived SpecDerived ScenarioFixed ScenarioBound ScenarioDerived
  DerivedProof DerivedFacts DerivedCor.

(** C78: each statistic of the tracker, and what the tracker prints, overflows exactly if one of the numbers listed in SpecDerived.v
    does not fit, and otherwise is what it is over unbounded integers.  In particular the cast of the days to [u32] loses nothing. *)
Theorem C78_statistics_exact : forall w c t,
  overflows_exactly w (w_turnover w t) (n_turnover t) (Done (turnover t)) /\
  overflows_exactly w (w_rpnl w t) (n_rpnl t) (Done (rpnl t)) /\
  overflows_exactly w (w_buy_volume_ratio w c t) (n_volume_ratio (c_scale c) t) (buy_volume_ratio c t) /\
  overflows_exactly w (w_buy_and_hold_return w c t) (n_hold (c_kind c) (c_scale c) t) (buy_and_hold_return c t) /\
  overflows_exactly w (w_sell_and_hold_return w c t) (n_short_hold c t) (sell_and_hold_return c t) /\
  overflows_exactly w (w_num_trading_days t) (n_days t) (num_trading_days t) /\
  overflows_exactly w (w_display_numbers w c t) (n_display c t) (display_numbers c t).
Proof. exact statistics_exact. Qed.
Print Assumptions C78_statistics_exact.
(** C78: so do the loading of trades, the size of a trade, the price paid, the rounding to a quantum and the absolute value. *)
Theorem C78_helpers_exact : forall w k s v q rows t,
  overflows_exactly w (w_load_rows rows) (n_load rows) (load_rows rows) /\
  overflows_exactly w (w_taker_size w t) (n_size t) (Done (taker_size t)) /\
  overflows_exactly w (w_price_paid_for_qty w k s v q) (n_paid k s v q) (price_paid_for_qty k s v q) /\
  overflows_exactly w (w_quantize_round_to_zero w v q) (n_quantize v q) (quantize_round_to_zero v q) /\
  overflows_exactly w (w_currency_abs w v) [Amt (Z.abs v)] (Done (currency_abs v)).
Proof. exact helpers_exact. Qed.
Print Assumptions C78_helpers_exact.

(** C78: after calls without an overflow the realized profit does not overflow either. *)
Theorem C78_rpnl : forall w c ops e outs,
  0 < w -> 0 <= c_max c <= 10000 -> w_play w c ops = Fine (Done (e, outs)) ->
  w_rpnl w (ex_trk e) = Fine (Done (rpnl (ex_trk e))).
Proof. exact profit_fits. Qed.
Print Assumptions C78_rpnl.
(** C78: nor do the trading days, if the market updates are stamped with times after the epoch. *)
Theorem C78_days : forall c ops e outs,
  0 <= c_max c <= 10000 -> history c ops e outs -> Forall sane_time (update_times ops) ->
  w_num_trading_days (ex_trk e) = Fine (num_trading_days (ex_trk e)).
Proof. exact days_fit. Qed.
Print Assumptions C78_days.
(** C78: the volume ratio overflows exactly if the turnover does. *)
Theorem C78_ratio : forall w c t,
  0 < w -> 0 < c_scale c -> in_range w (c_scale c) -> 0 <= tk_buy_volume t -> 0 <= tk_sell_volume t ->
  (w_buy_volume_ratio w c t = Overflow <-> 2 ^ (w - 1) <= turnover t).
Proof. exact ratio_fits. Qed.
Print Assumptions C78_ratio.
(** C78: under the conditions of C64 the turnover does not overflow. *)
Theorem C78_small_turnover : forall w c P V T ops e outs,
  valid_config c -> config_in c P V T (2 ^ (w - 1)) -> volume ops <= V ->
  (forall o, In o ops -> call_in P T (2 ^ (w - 1)) o) -> affordable c P V (2 ^ (w - 1)) ops ->
  history c ops e outs -> 0 <= turnover (ex_trk e) < 2 ^ (w - 1).
Proof. exact small_turnover. Qed.
Print Assumptions C78_small_turnover.
(** C78: the trades of a file load without an overflow if their times are at most 9223372036854 milliseconds, the year 2262. *)
Theorem C78_load : forall rows,
  Forall (fun r => Z.abs (cr_ms r) <= 9223372036854) rows -> w_load_rows rows = Fine (load_rows rows).
Proof. exact load_fits. Qed.
Print Assumptions C78_load.

(** C78: calls without an overflow do not rule out one in the turnover, the volume ratio and the printed statistics. *)
Theorem C78_turnover_refuted : exists w c ops e outs, valid_config c /\ w_play w c ops = Fine (Done (e, outs)) /\
  w_turnover w (ex_trk e) = Overflow /\ w_buy_volume_ratio w c (ex_trk e) = Overflow /\ w_display_numbers w c (ex_trk e) = Overflow.
Proof. exact busy_overflow. Qed.
Print Assumptions C78_turnover_refuted.
(** C78: nor one in the return of buying and holding, with a quote that is not even traded on. *)
Theorem C78_hold_refuted : exists w c ops e outs, valid_config c /\ w_play w c ops = Fine (Done (e, outs)) /\
  w_buy_and_hold_return w c (ex_trk e) = Overflow /\ w_sell_and_hold_return w c (ex_trk e) = Overflow /\ w_display_numbers w c (ex_trk e) = Overflow.
Proof. exact penny_overflow. Qed.
Print Assumptions C78_hold_refuted.
(** C78: nor, with times before the epoch, one in the trading days, whatever the integer type of the decimals. *)
Theorem C78_days_refuted : forall w, 64 <= w -> exists c ops e outs, valid_config c /\ w_play w c ops = Fine (Done (e, outs)) /\
  w_num_trading_days (ex_trk e) = Overflow /\ w_display_numbers w c (ex_trk e) = Overflow.
Proof. exact ancient_overflow. Qed.
Print Assumptions C78_days_refuted.

(** The history of C62, which needs 26 bits to run, followed by a later quote at which the loss is booked.  The loss, the turnover and all that is
    printed fit 26 bits. *)
Example C78_nonvacuous : exists e outs, w_play 26 (demo_cfg Linear true) sampled_ops = Fine (Done (e, outs)) /\
  0 <= c_max (demo_cfg Linear true) <= 10000 /\ Forall sane_time (update_times sampled_ops) /\ rpnl (ex_trk e) < 0 /\ 0 < turnover (ex_trk e) /\
  w_display_numbers 26 (demo_cfg Linear true) (ex_trk e) = Fine (display_numbers (demo_cfg Linear true) (ex_trk e)).
Proof. exact demo_derived. Qed.
(** The turnover of 119 round trips fits 32 bits, that of 120 does not. *)
Example C78_ratio_nonvacuous : exists e1 o1 e2 o2,
  w_play 32 busy_cfg (busy_ops 119) = Fine (Done (e1, o1)) /\ w_play 32 busy_cfg (busy_ops 120) = Fine (Done (e2, o2)) /\
  w_turnover 32 (ex_trk e1) = Fine (Done (turnover (ex_trk e1))) /\ w_buy_volume_ratio 32 busy_cfg (ex_trk e1) = Fine (Done (Some 5002)) /\
  w_turnover 32 (ex_trk e2) = Overflow.
Proof. exact busy_fits. Qed.
(** The bound on the milliseconds is the last one possible.  A row of size zero is refused before its time is computed, and the rows after
    it are not read. *)
Example C78_load_nonvacuous :
  returns (w_load_rows [row 9223372036854; row (- 9223372036854)]) = true /\ w_load_rows [row 9223372036855] = Overflow /\
  w_load_rows [row 1; row (- 9223372036855)] = Overflow /\
  w_load_rows [{| cr_ms := 9223372036855; cr_price := d 100; cr_size := 0 |}; row 9223372036855] = Fine (Panic PCsvSize).
Proof. vm_compute. repeat split. Qed.
(** At the smallest 32 bit number there is no absolute value and no size of a sale; a price paid overflows when the quantity is tiny. *)
Example C78_helpers_nonvacuous :
  w_currency_abs 32 (- 2 ^ 31) = Overflow /\ w_currency_abs 32 (- (2 ^ 31 - 1)) = Fine (Done (2 ^ 31 - 1)) /\
  w_taker_size 32 {| tr_price := d 1; tr_qty := - 2 ^ 31; tr_side := Sell; tr_ts := 0 |} = Overflow /\
  w_price_paid_for_qty 32 Linear S4 (d 100) 1 = Overflow /\ w_price_paid_for_qty 32 Linear S4 (d 100) (d 2) = Fine (Done (d 50)) /\
  w_price_paid_for_qty 32 Inverse S4 (d 2) (d 100) = Fine (Done (d 50)) /\
  w_quantize_round_to_zero 32 (- 25) 10 = Fine (Done (- 20)) /\ w_quantize_round_to_zero 32 (- 2 ^ 31) (- 1) = Overflow.
Proof. vm_compute. repeat split. Qed.
