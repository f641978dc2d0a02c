(** A limit order that is never filled, for the examples of C92. *)
From Verif Require Import Base Types OrderBook OrderMargin MarketUpdate Exchange Spec SpecGhost Scenario.

(** A short of 1 at 100 with three bids; another bid at 80 is never reached. *)
Definition haunted : list op :=
  [ quote 100 101 1; OpMarket Sell (d 1) 1; OpLimit Buy (d 90) (d 1) 2; OpLimit Buy (d 98) (d 1) 3; OpLimit Buy (d 97) (d 1) 4 ].
Definition unreached : op := OpLimit Buy (d 80) (d 1) 5.
(** Orders 2 and 3 one after the other, an order in between that is amended, and a market order. *)
Definition in_turn : list op :=
  [ OpCancel (ByOrderId 1); taker Sell 97 (d 1) 2; OpLimit Sell (d 105) (d 1) 6; OpAmend 5 Sell (d 106) (d 2) 7; taker Sell 96 5000 3; OpMarket Buy 5000 8; quote 99 100 4 ].
(** The two orders are filled by one trade. *)
Definition together : list op := [ OpCancel (ByOrderId 1); taker Sell 96 (d 1) 2 ].
