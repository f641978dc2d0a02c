(** The configurations of the exchanges set up for tests. *)
From Verif Require Import Base Types OrderBook OrderMargin MarketUpdate Exchange Scenario.

(** Five decimals: leverage 1, maintenance half, fees 0.0002 and 0.0006, price tick 1. *)
Definition M5 : Z := 100000.
Definition mock_cfg (k : kind) (dbg : bool) (start max qtick : Z) : config :=
  {| c_kind := k; c_scale := M5; c_dbg := dbg; c_start := start; c_max := max;
     c_spec := {| ct_imr := M5; ct_mm := 50000;
                  ct_pf := {| pf_min := None; pf_max := None; pf_tick := M5; pf_up := 200000; pf_down := 0 |};
                  ct_qf := {| qf_min := None; qf_max := None; qf_tick := qtick |};
                  ct_maker := 20; ct_taker := 60 |};
     c_sample_s := 3600 |}.
(** One contract bought at 101, offered at 110 and liquidated at 40. *)
Definition mock_quote (bid ask ts : Z) : op := OpUpdate (RBba {| bb_bid := bid * M5; bb_ask := ask * M5; bb_ts := ts |}).
Definition mock_ops : list op :=
  [ mock_quote 100 101 1; OpMarket Buy M5 0; OpLimit Sell (110 * M5) M5 0; mock_quote 40 41 2 ].
(** The same position without a liquidation. *)
Definition mock_calm : list op :=
  [ mock_quote 100 101 1; OpMarket Buy M5 0; OpLimit Sell (110 * M5) M5 0; mock_quote 102 103 2; OpCancel (ByOrderId 1) ].
