(** Histories of takers. *)
From Verif Require Import Base Types Filters Currency Position OrderBook OrderMargin Risk MarketUpdate Tracker Exchange Spec Scenario ScenarioCash.

(** Tenfold leverage, four decimals, capital 1000, a limit on the order quantity. *)
Definition lever (k : kind) (dbg : bool) (most : option Z) : config :=
  {| c_kind := k; c_scale := S4; c_dbg := dbg; c_start := d 1000; c_max := 10;
     c_spec := {| ct_imr := 1000; ct_mm := 500;
                  ct_pf := {| pf_min := None; pf_max := None; pf_tick := 1; pf_up := 0; pf_down := 0 |};
                  ct_qf := {| qf_min := None; qf_max := most; qf_tick := 1 |};
                  ct_maker := 2; ct_taker := 6 |};
     c_sample_s := 10 |}.

(** Buys twice, sells in part, a cancellation in vain, a trade, a short position that a jump of the price liquidates. *)
Definition taker_ops : list op :=
  [ quote 100 101 1; OpMarket Buy (d 5) 1; raw_quote 1020001 1020007 2; OpMarket Buy (d 2) 2; OpMarket Sell (d 3) 3; OpCancel (ByOrderId 0);
    cash_trade Buy (d 103) (d 1) 3; OpMarket Sell (d 4) 4; OpMarket Sell (d 50) 5; quote 150 151 4; quote 100 101 5 ].
(** Opens, turns around twice, closes, opens again and is liquidated. *)
Definition round_ops : list op :=
  [ quote 100 101 1; OpMarket Buy (d 5) 1; raw_quote 1020001 1020007 2; OpMarket Sell (d 8) 2; OpMarket Buy (d 4) 3; OpMarket Sell (d 1) 4;
    cash_trade Buy (d 103) (d 1) 3; OpMarket Buy (d 20) 5; quote 90 91 4 ].

(** Two purchases whose margin is not that of the rounded average. *)
Definition rounded_ops : list op := [ raw_quote 1000000 1000009 1; OpMarket Buy (d 1) 1; raw_quote 1000000 1000005 2; OpMarket Buy (d 1) 2 ].
(** More than one order may close. *)
Definition large_ops : list op := [ quote 100 101 1; OpMarket Buy (d 3) 1; OpMarket Buy (d 3) 2 ].
(** A loss beyond the capital. *)
Definition broke_ops : list op := [ quote 100 101 1; OpMarket Buy (d 90) 1; quote 10 11 2 ].
Definition long_ops : list op := [ quote 100 101 1; OpMarket Buy (d 1) 1 ].
(** A resting sell order, hedged by a purchase. *)
Definition hedged_ops : list op := [ quote 100 101 1; OpLimit Sell (d 110) (d 1) 1; OpMarket Buy (d 1) 2 ].
