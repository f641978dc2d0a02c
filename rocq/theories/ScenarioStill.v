(** Money from rounding: four purchases of 0.4 at 0.7 are booked as 1.6 at 0.5, and sold at 0.6. *)
From Verif Require Import Base Types Position OrderMargin MarketUpdate Exchange Spec SpecMarket Scenario.

Definition pieces : list op := [ OpMarket Buy 4 1; OpMarket Buy 4 1; OpMarket Buy 4 1; OpMarket Buy 4 1; OpMarket Sell 16 1 ].
Definition rounds (n : nat) : list op := raw_quote 6 7 1 :: concat (repeat pieces n).

(** One contract at 1, bought and sold in one piece and in ten. *)
Definition in_one : list op := [ quote 1 2 1; OpMarket Sell (d 1) 1; OpMarket Buy (d 1) 1 ].
Definition in_ten : list op := quote 1 2 1 :: repeat (OpMarket Sell 1000 1) 10 ++ [OpMarket Buy (d 1) 1].
(** Whole contracts, long and short, next to a resting order. *)
Definition still_ops : list op :=
  [ OpMarket Buy (d 2) 1; OpLimit Sell (d 110) (d 1) 2; OpMarket Buy (d 1) 3; OpCancel (ByUserOrderId 2); OpMarket Sell (d 5) 4; OpMarket Buy (d 1) 5 ].
