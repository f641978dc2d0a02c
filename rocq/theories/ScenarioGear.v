(** Accounts that differ in leverage. *)
From Verif Require Import Base Types Filters Accounting Position OrderBook OrderMargin MarketUpdate Exchange Spec Scenario SpecGear.

(** One decimal place, leverage 1, no fees, 1.2 to start with. *)
Definition purse (dbg : bool) : config :=
  {| c_kind := Linear; c_scale := 10; c_dbg := dbg; c_start := 12; c_max := 10;
     c_spec := c_spec (tiny Linear dbg); c_sample_s := 10 |}.
(** Leverage 2. *)
Definition purse2 (dbg : bool) : config := geared 5 2 (purse dbg).
(** Buy 1.2 contracts at 1.0 and sell them in four pieces. *)
Definition pieces : list op := [OpMarket Buy 12 1; OpMarket Sell 3 2; OpMarket Sell 3 3; OpMarket Sell 3 4; OpMarket Sell 3 5].
Definition pieces_ops : list op := raw_quote 10 10 1 :: pieces ++ pieces ++ pieces ++ pieces.

(** A history of orders and a liquidation with leverages 1 and 2: the same answers until the price falls by a quarter. *)
Definition lev1 : config := demo Linear true 1 2 6 (d 1000) 10.
Definition lev2 : config := geared 5000 2500 lev1.
Definition shared_ops : list op :=
  [ quote 100 101 1; OpMarket Buy (d 2) 1; OpLimit Buy (d 99) (d 1) 2; OpLimit Sell (d 103) (d 1) 3; OpCancel (ByOrderId 1);
    taker Buy 104 (d 1) 2; OpMarket Sell (d 3) 4; quote 100 101 3 ].
(** Leverage 1 and a maintenance margin of four fifths. *)
Definition upkeep : config := geared 10000 8000 lev1.
