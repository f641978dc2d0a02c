(** Calls for the examples of C96. *)
From Verif Require Import Base Types MarketUpdate Exchange Spec SpecNews Scenario ScenarioPanic.

(** Two bids. *)
Definition bids : list op := [ quote 100 101 1; OpLimit Buy (d 99) (d 1) 1; OpLimit Buy (d 97) (d 2) 2 ].
(** A bid, an offer and another bid. *)
Definition both_sides : list op := [ quote 100 101 1; OpLimit Buy (d 99) (d 1) 1; OpLimit Sell (d 104) (d 1) 2; OpLimit Buy (d 97) (d 1) 3 ].

Definition short_candle : candle := {| cd_bid := d 97; cd_ask := d 98; cd_low := d 98; cd_high := d 103; cd_ts := 5 |}.
Definition long_candle : candle := {| cd_bid := d 97; cd_ask := d 98; cd_low := d 96; cd_high := d 105; cd_ts := 5 |}.
Definition sold (p : Z) : trade := {| tr_price := d p; tr_qty := d 2; tr_side := Sell; tr_ts := 5 |}.
Definition bought (p : Z) : trade := {| tr_price := d p; tr_qty := d 2; tr_side := Buy; tr_ts := 5 |}.
