(** Market data for the examples of C103. *)
From Verif Require Import Base Types MarketUpdate Exchange Spec Scenario ScenarioPanic ScenarioAgain.

Definition sold (p q : Z) : trade := {| tr_price := d p; tr_qty := d q; tr_side := Sell; tr_ts := 5 |}.
(** A sale of one contract and a lower one, as a candle. *)
Definition busy : raw_update := RSmart [sold 98 1; sold 89 1] {| bb_bid := d 98; bb_ask := d 99; bb_ts := 5 |} demo_pf.
(** A candle around these trades. *)
Definition around : raw_update := RCandle {| cd_bid := d 98; cd_ask := d 99; cd_low := d 89; cd_high := d 102; cd_ts := 5 |}.
(** An offer and two purchases. *)
Definition one_offer : list op := [ quote 100 101 1; OpLimit Sell (d 102) (d 3) 1 ].
Definition bought : raw_update := RTrade {| tr_price := d 103; tr_qty := d 1; tr_side := Buy; tr_ts := 5 |}.
Definition bought_more : raw_update := RTrade {| tr_price := d 104; tr_qty := d 2; tr_side := Buy; tr_ts := 5 |}.
