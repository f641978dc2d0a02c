(** Calls for the examples of C102. *)
From Verif Require Import Base Types MarketUpdate Exchange Spec Scenario.

(** A bid of which one of two contracts is filled, and an offer. *)
Definition half_filled : list op := [ quote 100 101 1; OpLimit Buy (d 99) (d 2) 1; OpLimit Sell (d 110) (d 3) 2; taker Sell 98 (d 1) 2 ].
(** The market has moved below the bid without a trade. *)
Definition overtaken : list op := [ quote 100 101 1; OpLimit Buy (d 99) (d 2) 1; quote 97 98 2 ].
(** Of the bid only 0.3 contracts are left. *)
Definition crumb : list op := [ quote 100 101 1; OpLimit Buy (d 99) (d 2) 1; taker Sell 98 17000 2 ].
(** A candle that fills the bid. *)
Definition sinking : candle := {| cd_bid := d 98; cd_ask := d 99; cd_low := d 97; cd_high := d 102; cd_ts := 5 |}.
