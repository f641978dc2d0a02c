(** Histories with market data of which nothing comes. *)
From Verif Require Import Base Types Filters Accounting Position OrderBook OrderMargin MarketUpdate Tracker Exchange Spec Scenario SpecThin.

Definition thick_cfg : config := demo Linear true 1 2 6 (d 1000) 10.
Definition ten (n : Z) : Z := n * 10000000000.
Definition quote_at (bid ask ts : Z) : raw_update := RBba {| bb_bid := d bid; bb_ask := d ask; bb_ts := ts |}.
Definition trade_at (sd : side) (p q ts : Z) : raw_update := RTrade {| tr_price := d p; tr_qty := q; tr_side := sd; tr_ts := ts |}.
(** Long two with a resting order, then four updates that touch nothing, then a quote, a fill of the resting order and a market order that closes. *)
Definition early : list op := [OpUpdate (quote_at 100 101 (ten 1)); OpMarket Buy (d 2) 1; OpLimit Buy (d 61) (d 2) 2].
Definition dull : list raw_update := [quote_at 101 102 (ten 2); quote_at 70 71 (ten 3); trade_at Buy 104 (d 1) (ten 4); quote_at 102 103 (ten 5)].
Definition next_quote : raw_update := quote_at 105 106 (ten 6).
Definition late : list op := [OpUpdate (trade_at Sell 50 (d 2) (ten 7)); OpMarket Sell (d 4) 3].
(** A candle that falls through a resting buy order and ends far below it. *)
Definition slump : raw_update := RCandle {| cd_bid := d 40; cd_ask := d 41; cd_low := d 40; cd_high := d 101; cd_ts := 2 |}.
Definition before_slump : list op := [quote 100 101 1; OpLimit Buy (d 99) (d 1) 1].
