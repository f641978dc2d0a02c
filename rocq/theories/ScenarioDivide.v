(** Limit orders in parts for the examples of C91. *)
From Verif Require Import Base Types MarketUpdate Exchange Spec SpecSplit SpecBatch SpecDivide Scenario ScenarioSlice.

(** One decimal place: 0.6 contracts at 0.5, at once or as twice 0.3, with a quote of 0.4 and 0.6. *)
Definition wide_start : list op := [ raw_quote 4 6 1 ].
(** 0.5 and 1000.5 contracts at 0.1: the values are 0.0 and 100.0, that of the sum is 100.1. *)
Definition dust : list Z := [ 5; 10005 ].
(** Two times 1 at 98 in a quote of 99 and 100, and a taker who sells 1.5 at 97. *)
Definition pair_start : list op := [ quote 99 100 1 ].
Definition two_ones : list Z := [ d 1; d 1 ].
Definition one_seller : list trade := [ {| tr_price := d 97; tr_qty := 15000; tr_side := Sell; tr_ts := 2 |} ].
