(** Calls for the examples of C101. *)
From Verif Require Import Base Types MarketUpdate Exchange Spec Scenario ScenarioPanic.

(** A bid for two contracts and a lower one. *)
Definition two_bids : list op := [ quote 100 101 1; OpLimit Buy (d 99) (d 2) 1; OpLimit Buy (d 90) (d 1) 2 ].
Definition dip : candle := {| cd_bid := d 98; cd_ask := d 99; cd_low := d 97; cd_high := d 102; cd_ts := 5 |}.
Definition crash : candle := {| cd_bid := d 40; cd_ask := d 41; cd_low := d 39; cd_high := d 102; cd_ts := 5 |}.
Definition sale : raw_update := RTrade {| tr_price := d 98; tr_qty := d 1; tr_side := Sell; tr_ts := 5 |}.
(** A wider quote, and a trade by a buyer, which fills no bid. *)
Definition wider : raw_update := RBba {| bb_bid := d 99; bb_ask := d 103; bb_ts := 5 |}.
Definition purchase : raw_update := RTrade {| tr_price := d 98; tr_qty := d 1; tr_side := Buy; tr_ts := 5 |}.
