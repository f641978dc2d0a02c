(** Histories for the property that small inputs never overflow. *)
From Verif Require Import Base Types Filters Currency Position OrderBook OrderMargin Risk MarketUpdate Tracker Exchange Spec SpecBound Scenario.

(** The linear future of [everyday_config]: tenfold leverage, tick 0.5, fees 0.02 % and 0.06 %. *)
Definition btc_cfg : config :=
  {| c_kind := Linear; c_scale := 100000; c_dbg := false; c_start := 10000 * 100000; c_max := 100;
     c_spec := {| ct_imr := 10000; ct_mm := 5000;
                  ct_pf := {| pf_min := None; pf_max := None; pf_tick := 50000; pf_up := 200000; pf_down := 0 |};
                  ct_qf := {| qf_min := None; qf_max := None; qf_tick := 100 |};
                  ct_maker := 20; ct_taker := 60 |};
     c_sample_s := 3600 |}.
Definition u5 (n : Z) : Z := n * 100000.
Definition btc_ops : list op :=
  [ OpUpdate (RBba {| bb_bid := u5 60000; bb_ask := u5 60001; bb_ts := 1700000000000000000 |});
    OpMarket Buy 50000 1;
    OpLimit Sell (u5 61000) 50000 2;
    OpLimit Buy (u5 59000) 20000 3;
    OpUpdate (RTrade {| tr_price := u5 61500; tr_qty := u5 1; tr_side := Buy; tr_ts := 1700000000000000001 |});
    OpCancel (ByUserOrderId 3) ].
