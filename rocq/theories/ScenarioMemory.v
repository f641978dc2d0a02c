(** Calls for the examples of C98. *)
From Verif Require Import Base Types MarketUpdate OrderBook OrderMargin Exchange Spec Scenario ScenarioPanic.

(** A contract bought and sold again; two orders placed and cancelled. *)
Definition traded : list op := [ quote 100 101 1; OpMarket Buy (d 1) 1; OpMarket Sell (d 1) 2 ].
Definition idled : list op := [ quote 100 101 1; OpLimit Buy (d 90) (d 1) 1; OpCancel (ByUserOrderId 1); OpLimit Buy (d 90) (d 1) 2; OpCancel (ByUserOrderId 2) ].
(** What is left of 1000 after the first. *)
Definition left_over : Z := d 1000 - d 1 - (606 + 600).
(** A contract bought, an order resting. *)
Definition opened : list op := [ OpMarket Buy (d 1) 3; OpLimit Sell (d 105) (d 1) 4 ].
(** What follows. *)
Definition later : list op := [ quote 103 104 2; OpMarket Sell (d 2) 5; quote 110 111 3; OpMarket Buy (d 1) 6; OpMarket Buy (d 9) 7 ].
(** In small units: contracts bought in two orders and sold in one; three orders placed and cancelled; then a long of 0.3 turned into a short. *)
Definition dusty : list op := [ raw_quote 4 5 1; OpMarket Buy 3 1; OpMarket Buy 3 2; OpMarket Sell 6 3 ].
Definition waited : list op := [ raw_quote 4 5 1; OpLimit Buy 2 3 1; OpCancel (ByUserOrderId 1); OpLimit Buy 2 3 1; OpCancel (ByUserOrderId 1); OpLimit Buy 2 3 1; OpCancel (ByUserOrderId 1) ].
Definition turned : list op := [ OpMarket Buy 3 4; OpMarket Sell 6 5 ].
