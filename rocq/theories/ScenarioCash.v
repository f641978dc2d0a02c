(** Histories of cash accounts. *)
From Verif Require Import Base Types Filters Currency Position OrderBook OrderMargin Risk MarketUpdate Tracker Exchange Spec Scenario.

(** Four decimals, capital 1000. *)
Definition cash_cfg (dbg : bool) (imr mm fee : Z) : config :=
  {| c_kind := Linear; c_scale := S4; c_dbg := dbg; c_start := d 1000; c_max := 10;
     c_spec := {| ct_imr := imr; ct_mm := mm;
                  ct_pf := {| pf_min := None; pf_max := None; pf_tick := 1; pf_up := 0; pf_down := 0 |};
                  ct_qf := {| qf_min := None; qf_max := None; qf_tick := 1 |};
                  ct_maker := fee; ct_taker := fee |};
     c_sample_s := 10 |}.
Definition cash_trade (sd : side) (p q ts : Z) : op := OpUpdate (RTrade {| tr_price := p; tr_qty := q; tr_side := sd; tr_ts := ts |}).

(** Buys, a covered sell, a partly filled buy, an amended sell, a candle that fills both sides and a crash to 1. *)
Definition cash_ops : list op :=
  [ quote 100 101 1; OpMarket Buy (d 5) 1; OpLimit Sell (d 110) (d 2) 2; OpLimit Buy (d 90) (d 3) 3;
    cash_trade Sell (d 89) (d 1) 2; OpAmend 1 Sell (d 112) (d 4) 4;
    OpUpdate (RCandle {| cd_bid := d 100; cd_ask := d 101; cd_low := d 80; cd_high := d 120; cd_ts := 3 |});
    OpLimit Buy (d 95) (d 2) 5; OpLimit Sell (d 130) (d 3) 6; OpCancel (ByUserOrderId 5); quote 1 2 4; OpMarket Sell (d 1) 7;
    cash_trade Buy (d 131) (d 9) 5 ].

(** A covered sell rests when the price falls to 40. *)
Definition liquidated_ops : list op := [ quote 100 101 1; OpMarket Buy (d 1) 1; OpLimit Sell (d 110) (d 1) 2; quote 40 41 2 ].
(** 19 contracts with twofold leverage when the price falls from 100 to 10. *)
Definition gap_ops : list op := [ quote 99 100 1; OpMarket Buy (d 19) 1; quote 10 11 2 ].
(** The owned contract is offered and then sold. *)
Definition uncovered_ops : list op := [ quote 100 101 1; OpMarket Buy (d 1) 1; OpLimit Sell (d 110) (d 1) 2; OpMarket Sell (d 1) 3 ].
(** Fees of five percent; a resting buy ties up the money for them when the price falls to 1. *)
Definition unprovided_ops : list op :=
  [ quote 99 100 1; OpMarket Buy (d 5) 1; OpLimit Buy (d 99) (d 5) 2; quote 1 2 2; OpMarket Sell (d 5) 3 ].
(** A resting buy of 0.0001 at 0.5. *)
Definition cheap_ops : list op := [ raw_quote 4000 6000 1; OpLimit Buy 5000 1 1 ].
(** 0.0003 bought twice at 1.5: the entry price becomes 1.3333. *)
Definition averaged_ops : list op := [ raw_quote 14000 15000 1; OpMarket Buy 3 1; OpMarket Buy 3 2 ].
