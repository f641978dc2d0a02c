(** The benchmark programs in benches/, except decimal_comparison.rs, which does not use the exchange.  Timing is left out and so is the file
    with the recorded trades (Data.v): the trades are a parameter.  The numbers are unbounded; the programs use 64 bits (Fixed.v).
    They use no account tracker, which changes no result (C53). *)
From Verif Require Import Base Types Accounting Filters Currency Position OrderBook OrderMargin MarketUpdate Exchange Helpers Defaults.

(** The set-up common to the programs: leverage 1, half of the margin maintains the position, price steps of 0.5 between half and twice the price,
    an inverse contract and 200 orders.  Every [unwrap] and [expect] panics with the same mark. *)
Definition bench_config (m : inexact) (dbg : bool) (D : nat) (start : Z) (step_n : Z) (step_s : nat) (maker_n : Z) (taker_n : Z) (fee_s : nat) : outcome config :=
  let s := 10 ^ Z.of_nat D in
  start <- currency_new m s start 0 ;;
  lev <- unwrap_ok (leverage_new s 1) PMockSetup ;;
  fraction <- unwrap_some (try_from_scaled m s 5 1) PMockSetup ;;
  tick <- currency_new m s 5 1 ;;
  pf <- price_filter_new s None None tick (2 * s) fraction ;;
  pf <- unwrap_ok pf PMockSetup ;;
  qtick <- currency_new m s step_n step_s ;;
  qf <- quantity_filter_new None None qtick ;;
  qf <- unwrap_ok qf PMockSetup ;;
  maker <- unwrap_some (try_from_scaled m s maker_n fee_s) PMockSetup ;;
  taker <- unwrap_some (try_from_scaled m s taker_n fee_s) PMockSetup ;;
  ct <- contract_new s lev fraction pf qf maker taker ;;
  ct <- unwrap_ok ct PMockSetup ;;
  unwrap_ok (config_new Inverse s dbg start 200 ct 3600) PMockSetup.

(** benches/submit_limit_order.rs:14-32 and benches/check_active_orders.rs:11-29. *)
Definition limit_config (m : inexact) (dbg : bool) : outcome config := bench_config m dbg 5 100000 1 1 2 6 4.
(** benches/submit_market_order.rs:33-51. *)
Definition market_config (m : inexact) (dbg : bool) : outcome config := bench_config m dbg 5 100000 1 2 2 6 1.
(** benches/market_update_trade.rs:41-59; fees of 200 and 600 percent. *)
Definition trade_config (m : inexact) (dbg : bool) : outcome config := bench_config m dbg 5 1 1 0 2 6 0.
(** benches/smart_candle.rs:9-28; one decimal place. *)
Definition candle_config (m : inexact) (dbg : bool) : outcome config := bench_config m dbg 1 1 1 0 2 6 0.

(** Calls whose results are taken with [expect] or [unwrap]: the first error ends the program. *)
Fixpoint expect_all (c : config) (e : exchange) (ops : list op) : outcome (exchange * option error) :=
  match ops with
  | [] => Done (e, None)
  | o :: r => '(e1, x) <- step c e o ;; match x with Ok _ => expect_all c e1 r | Err y => Done (e1, Some y) end
  end.
Definition bench_run (cfg : outcome config) (ops : list op) : outcome (exchange * option error) :=
  c <- cfg ;; e0 <- init c ;; expect_all c e0 ops.

(** Five decimal places. *)
Definition bench_scale : Z := 10 ^ 5.
Definition bench_bba : raw_update := RBba {| bb_bid := 100 * bench_scale; bb_ask := 101 * bench_scale; bb_ts := 0 |}.
(** benches/submit_limit_order.rs:41-52 with the order of 56-61: [n] times 0.1 contracts at 100. *)
Definition limit_ops (n : nat) : list op := OpUpdate bench_bba :: repeat (OpLimit Buy (100 * bench_scale) 10000 0) n.
(** benches/check_active_orders.rs:43-62: [n] orders at 99, then [k] checks. *)
Definition check_ops (n k : nat) : list op :=
  OpUpdate bench_bba :: repeat (OpLimit Buy (99 * bench_scale) 10000 0) n ++ repeat (OpCheck bench_bba) k.
(** benches/submit_market_order.rs:53-75: [n] times 0.01 contracts, in all iterations together. *)
Definition market_ops (n : nat) : list op := OpUpdate bench_bba :: repeat (OpMarket Buy 1000 0) n.
(** benches/market_update_trade.rs:9-17, [generate_quotes_from_trades]. *)
Definition quote_around (t : trade) : raw_update :=
  RBba {| bb_bid := tr_price t - bench_scale; bb_ask := tr_price t + bench_scale; bb_ts := tr_ts t |}.
(** benches/market_update_trade.rs:35-37 with 69-87: the trades and the quotes, [k] and [l] times. *)
Fixpoint times {A} (k : nat) (l : list A) : list A := match k with O => [] | S k => l ++ times k l end.
Definition replay_ops (trades : list trade) (k l : nat) : list op :=
  times k (map (fun t => OpUpdate (RTrade t)) trades) ++ times l (map (fun t => OpUpdate (quote_around t)) trades).
(** benches/smart_candle.rs:42-60: a candle for every chunk of trades, with the last price as bid; one decimal place.  The program builds
    all candles before the first update; here each is built when it is used. *)
Definition chunk_candle (c : config) (chunk : list trade) : raw_update :=
  let t := last chunk {| tr_price := 0; tr_qty := 0; tr_side := Buy; tr_ts := 0 |} in
  RSmart chunk {| bb_bid := tr_price t; bb_ask := tr_price t + 10; bb_ts := tr_ts t |} (ct_pf (c_spec c)).
Definition candle_ops (c : config) (chunks : list (list trade)) (k : nat) : list op :=
  times k (map (fun l => OpUpdate (chunk_candle c l)) chunks).
