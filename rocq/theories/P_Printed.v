(** Property C97: what is printed. *)
From Coq Require Import String.
From Verif Require Import Base Types Position OrderBook MarketUpdate Exchange Printed SpecPrinted PrintedProof PrintedFacts.
Open Scope string_scope.

(** C97: the text of a market update tells its kind, and of a quote both prices, of a trade price, quantity and side, of a candle the four prices,
    of a smart candle the numbers of levels and the time; and nothing else. *)
Theorem C97_updates : forall k num u u', plain num -> print_update k num u = print_update k num u' <-> tells u = tells u'.
Proof. exact text_update. Qed.
Print Assumptions C97_updates.

(** Integers are printed in a way that satisfies the hypothesis. *)
Example C97_plain_case : plain show_int.
Proof. exact int_plain. Qed.
Example C97_updates_case :
  print_update Linear show_int (UTrade {| tr_price := 100; tr_qty := -5; tr_side := Sell; tr_ts := 7 |}) = "price 100 Quote, quantity: -5 Base, side: Sell" /\
  print_update Inverse show_int (UCandle {| cd_bid := 1; cd_ask := 2; cd_low := 3; cd_high := 4; cd_ts := 7 |}) = "bid: 1 Quote, ask: 2 Quote, high: 4 Quote, low: 3 Quote".
Proof. split; reflexivity. Qed.

(** C97: the text of the state of the market tells all of it. *)
Theorem C97_market : forall num m m', plain num -> print_market num m = print_market num m' <-> m = m'.
Proof. exact text_market. Qed.
Print Assumptions C97_market.

Example C97_market_case : print_market show_int {| ms_bid := 100; ms_ask := 101; ms_ts := -3; ms_step := 0 |} = "bid: 100 Quote, ask: 101 Quote, ts_ns: -3, step: 0".
Proof. reflexivity. Qed.

(** C97: the text of a position tells its direction, quantity and entry price; that of its inner record quantity and fees. *)
Theorem C97_position : forall k num p p', plain num -> print_position k num p = print_position k num p' <-> stance_of p = stance_of p'.
Proof. exact text_position. Qed.
Print Assumptions C97_position.
Theorem C97_inner : forall k num i i', plain num -> print_inner k num i = print_inner k num i' <-> pi_qty i = pi_qty i' /\ pi_fees i = pi_fees i'.
Proof. exact text_inner. Qed.
Print Assumptions C97_inner.

Example C97_position_case :
  print_position Linear show_int (Short {| pi_qty := 20; pi_entry := 99; pi_fees := 4 |}) = "Short 20 Base @ 99 Quote" /\
  print_inner Linear show_int {| pi_qty := 20; pi_entry := 99; pi_fees := 4 |} = "PositionInner( quantity: 20 Base, outstanding_fees: 4 Quote)".
Proof. split; reflexivity. Qed.

(** C97: the text of the balances tells all three. *)
Theorem C97_balances : forall k num b b', plain num -> print_balances k num b = print_balances k num b' <-> b = b'.
Proof. exact text_balances. Qed.
Print Assumptions C97_balances.

Example C97_balances_case : print_balances Inverse show_int {| ub_wallet := 7; ub_pm := 2; ub_om := 0 |} = "available_balance: 7 Base, position_margin: 2 Base, order_margin: 0 Base".
Proof. reflexivity. Qed.

(** C97: the text of the state of a resting order tells its id, its time and what was filled; that of a filled order also the time and the average price. *)
Theorem C97_pending : forall k num o o', plain num -> print_pending k num o = print_pending k num o' <-> lo_id o = lo_id o' /\ lo_ts o = lo_ts o' /\ lo_filled o = lo_filled o'.
Proof. exact text_pending. Qed.
Print Assumptions C97_pending.
Theorem C97_filled : forall k num o o', plain num ->
  print_filled k num o = print_filled k num o' <-> fl_id o = fl_id o' /\ fl_ts o = fl_ts o' /\ fl_exec_ts o = fl_exec_ts o' /\ fl_avg o = fl_avg o' /\ fl_qty o = fl_qty o'.
Proof. exact text_filled. Qed.
Print Assumptions C97_filled.

Example C97_pending_case :
  print_pending Linear show_int {| lo_uid := 1; lo_side := Buy; lo_price := 9; lo_rem := 3; lo_id := 5; lo_ts := 6; lo_filled := FilledQ 2 9 |} =
  "Pending ( meta: ExchangeOrderMeta( id: 5, ts_ns_exchange_received: 6), filled_quantity: Filled( cumulative_qty: 2 Base, avg_price: 9 Quote))".
Proof. reflexivity. Qed.

(** C97: the text of a price filter tells all of it. *)
Theorem C97_filter : forall num f f', plain num -> print_price_filter num f = print_price_filter num f' <-> f = f'.
Proof. exact text_filter. Qed.
Print Assumptions C97_filter.

Example C97_filter_case : print_price_filter show_int {| pf_min := None; pf_max := Some 9; pf_tick := 1; pf_up := 2; pf_down := 0 |} =
  "PriceFilter( min_price: None, max_price: 9 Quote, tick_size: 1 Quote, multiplier_up: 2, multiplier_down: 0 )".
Proof. reflexivity. Qed.

(** C97: not everything is printed: quotes with different times, positions with different fees and inner records with different entry prices have the same text. *)
Theorem C97_left_out_refuted : forall num k, exists u u' p p' i i',
  print_update k num (UBba u) = print_update k num (UBba u') /\ bb_ts u <> bb_ts u' /\
  print_position k num p = print_position k num p' /\ position_outstanding_fees p <> position_outstanding_fees p' /\
  print_inner k num i = print_inner k num i' /\ pi_entry i <> pi_entry i'.
Proof. exact left_out. Qed.
Print Assumptions C97_left_out_refuted.
