(** Histories about order entry. *)
From Verif Require Import Base Types Filters Accounting Currency Position OrderBook OrderMargin
  Risk MarketUpdate Tracker Exchange Spec SpecConfig Scenario.

(** A rich account that may rest [max] orders, and [n] equal buys of 1 at 100. *)
Definition many (dbg : bool) (max : Z) : config := demo Linear dbg 1 2 6 (d 2000000) max.
Definition one_buy : op := OpLimit Buy (d 100) (d 1) 7.
Definition many_ops (n : nat) : list op := quote 100 101 1 :: repeat one_buy n.

(** One resting buy. *)
Definition resting_buy : list op := [quote 100 101 1; OpLimit Buy (d 90) (d 1) 1].

(** Long 9 at 101, the quote falls to 60. *)
Definition falling_ops : list op := [quote 100 101 1; OpMarket Buy (d 9) 1; quote 60 61 2].
(** Ten times leverage: long 9 at 101 with 100 of capital; the quote then jumps to 10. *)
Definition geared (dbg : bool) : config := demo Linear dbg 10 2 6 (d 100) 10.
Definition geared_ops : list op := [quote 100 101 1; OpMarket Buy (d 9) 1].

(** An inverse contract without leverage, maintenance fraction 0.9; long 100 at 100, the quote falls to 20. *)
Definition heavy (dbg : bool) : config :=
  {| c_kind := Inverse; c_scale := S4; c_dbg := dbg; c_start := d 10; c_max := 10;
     c_spec := {| ct_imr := S4; ct_mm := 9000;
                  ct_pf := {| pf_min := None; pf_max := None; pf_tick := d 1; pf_up := d 2; pf_down := 0 |};
                  ct_qf := {| qf_min := None; qf_max := None; qf_tick := 1000 |};
                  ct_maker := 2; ct_taker := 6 |};
     c_sample_s := 10 |}.
Definition heavy_ops : list op := [quote 99 100 1; OpMarket Buy (d 100) 1; quote 20 21 2].
(** An inverse position built at 100 and 200. *)
Definition mixed_ops : list op := [quote 99 100 1; OpMarket Buy (d 100) 1; quote 199 200 2; OpMarket Buy (d 100) 2].
