(** Calls for the examples of C104. *)
From Verif Require Import Base Types OrderMargin MarketUpdate Exchange Spec Scenario.

(** Five bids and an offer. *)
Definition lopsided : list op := [ quote 100 101 1; OpLimit Buy (d 99) (d 5) 1; OpLimit Sell (d 110) (d 1) 2 ].
(** One contract, for sale. *)
Definition for_sale : list op := [ quote 100 101 1; OpMarket Buy (d 1) 1; OpLimit Sell (d 110) (d 1) 2 ].
