(** Property C87: what the benchmark programs do. *)
From Verif Require Import Base Types Accounting Filters Currency Position OrderBook OrderMargin MarketUpdate Exchange Helpers Defaults Spec SpecMachine Bench BenchProof.

(** The set-ups, whatever the rounding of inexact decimals and the build: an inverse contract without leverage, 200 orders, price steps of 0.5
    between half and twice the price, and for each program the decimal scale, the balance, the quantity step and the fees. *)
Theorem C87_setups : forall m dbg, let setup s start step maker taker :=
  Done {| c_kind := Inverse; c_scale := s; c_dbg := dbg; c_start := start; c_max := 200;
    c_spec := {| ct_imr := s; ct_mm := s / 2; ct_pf := {| pf_min := None; pf_max := None; pf_tick := s / 2; pf_up := 2 * s; pf_down := s / 2 |};
                 ct_qf := {| qf_min := None; qf_max := None; qf_tick := step |}; ct_maker := maker; ct_taker := taker |};
    c_sample_s := 3600 |} in
  limit_config m dbg = setup 100000 10000000000 10000 20 60 /\ market_config m dbg = setup 100000 10000000000 1000 20000 60000 /\
  trade_config m dbg = setup 100000 100000 100000 200000 600000 /\ candle_config m dbg = setup 10 10 10 20 60.
Proof. exact configs. Qed.
Print Assumptions C87_setups.

Example C87_setups_case : match market_config CutOff false with Done c => ct_taker (c_spec c) * 10 = 6 * c_scale c /\ c_start c = 100000 * c_scale c | Panic _ => False end.
Proof. vm_compute. auto. Qed.

(** submit_limit_order: up to 200 orders are accepted, whatever the build; with one more the program ends with an error. *)
Theorem C87_limit : forall m dbg n, match bench_run (limit_config m dbg) (limit_ops n) with
  | Done (e, None) => (n <= 200)%nat /\ length (ex_active e) = n /\ wallet_of e = 10000000000 - 100 * Z.of_nat n
  | Done (e, Some x) => (200 < n)%nat /\ x = EMaxNumberOfActiveOrders /\ length (ex_active e) = 200%nat
  | Panic _ => False end.
Proof. exact bench_limit. Qed.
Print Assumptions C87_limit.

Example C87_limit_case : match bench_run (limit_config CutOff false) (limit_ops 3), bench_run (limit_config CutOff false) (limit_ops 201) with
  | Done (e, None), Done (_, Some x) => wallet_of e = 9999999700 /\ x = EMaxNumberOfActiveOrders
  | _, _ => False end.
Proof. vm_compute. auto. Qed.

(** check_active_orders: any number of checks with a quote passes and leaves the exchange as it was. *)
Theorem C87_check : forall m dbg n k, (n <= 200)%nat -> exists e e', bench_run (limit_config m dbg) (check_ops n k) = Done (e, None) /\
  bench_run (limit_config m dbg) (check_ops n 0) = Done (e', None) /\ machine_of e = machine_of e' /\ length (ex_active e) = n.
Proof. exact bench_check. Qed.
Print Assumptions C87_check.

Example C87_check_case : match bench_run (limit_config Refuse true) (check_ops 5 20) with
  | Done (e, None) => length (ex_active e) = 5%nat /\ wallet_of e = 10000000000 - 505
  | _ => False end.
Proof. vm_compute. auto. Qed.

(** submit_market_order: all iterations use one exchange and only buy.  The money lasts for 1111111110 orders; the next one is refused
    and ends the program. *)
Theorem C87_market : forall m dbg n, match bench_run (market_config m dbg) (market_ops n) with
  | Done (e, None) => Z.of_nat n <= 1111111110 /\ position_quantity (ex_pos e) = 1000 * Z.of_nat n /\ wallet_of e = 10000000000 - 9 * Z.of_nat n
  | Done (e, Some x) => 1111111110 < Z.of_nat n /\ x = ERisk NotEnoughAvailableBalance /\ wallet_of e = 10
  | Panic _ => False end.
Proof. exact bench_market. Qed.
Print Assumptions C87_market.

Example C87_market_case : match bench_run (market_config Refuse true) (market_ops 100) with
  | Done (e, None) => position_quantity (ex_pos e) = 100000 /\ wallet_of e = 9999999100
  | _ => False end.
Proof. vm_compute. auto. Qed.

(** market_update_trade: any trades and the quotes made from them pass, any number of times.  In a debug build the prices
    have to be multiples of 0.5. *)
Theorem C87_replay : forall m dbg trades k l, (dbg = true -> forall t, In t trades -> tr_price t mod 50000 = 0) ->
  exists e, bench_run (trade_config m dbg) (replay_ops trades k l) = Done (e, None) /\ position_quantity (ex_pos e) = 0 /\ wallet_of e = bench_scale.
Proof. exact bench_replay. Qed.
Print Assumptions C87_replay.

Example C87_replay_case : match bench_run (trade_config Refuse true)
    (replay_ops [{| tr_price := 50000; tr_qty := 1; tr_side := Buy; tr_ts := 1 |}; {| tr_price := 200000; tr_qty := 3; tr_side := Sell; tr_ts := 2 |}] 3 2) with
  | Done (e, None) => ms_bid (ex_ms e) = 100000 /\ ms_ask (ex_ms e) = 300000 /\ ms_step (ex_ms e) = 10
  | _ => False end.
Proof. vm_compute. auto. Qed.

(** Without the condition a debug build panics. *)
Theorem C87_replay_refuted : forall m,
  bench_run (trade_config m true) (replay_ops [{| tr_price := 50001; tr_qty := 1; tr_side := Buy; tr_ts := 1 |}] 1 0) = Panic PInvalidUpdateDebug.
Proof. exact bench_offtick. Qed.
Print Assumptions C87_replay_refuted.

(** smart_candle: any chunks of trades at multiples of 0.5 pass, any number of times. *)
Theorem C87_candles : forall m dbg chunks k, (forall l, In l chunks -> l <> [] /\ forall t, In t l -> tr_price t mod 5 = 0 /\ 0 < tr_qty t) ->
  exists c e, candle_config m dbg = Done c /\ bench_run (candle_config m dbg) (candle_ops c chunks k) = Done (e, None) /\ position_quantity (ex_pos e) = 0 /\ wallet_of e = 10.
Proof. exact bench_candles. Qed.
Print Assumptions C87_candles.

Example C87_candles_case : match candle_config Refuse true with
  | Done c => match bench_run (candle_config Refuse true)
      (candle_ops c [[{| tr_price := 1000; tr_qty := 1; tr_side := Buy; tr_ts := 1 |}; {| tr_price := 1005; tr_qty := 3; tr_side := Sell; tr_ts := 2 |}]] 2) with
    | Done (e, None) => ms_bid (ex_ms e) = 1005 /\ ms_ask (ex_ms e) = 1015 /\ ms_step (ex_ms e) = 2
    | _ => False end
  | _ => False end.
Proof. vm_compute. auto. Qed.
