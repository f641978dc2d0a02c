(** Calls for the examples of C99. *)
From Verif Require Import Base Types MarketUpdate OrderBook OrderMargin Exchange Spec Scenario ScenarioPanic ScenarioMemory.

(** The quote that [traded] ends with, and in small units the one of [dusty]. *)
Definition first_quote : raw_update := RBba {| bb_bid := d 100; bb_ask := d 101; bb_ts := 1 |}.
Definition small_quote : raw_update := RBba {| bb_bid := 4; bb_ask := 5; bb_ts := 1 |}.
(** The order with id 1 is amended and becomes id 2; id 1 is gone and id 9 unknown; a trade fills the amended order. *)
Definition numbered : list op :=
  [ OpAmend 1 Sell (d 104) (d 1) 5; OpCancel (ByOrderId 1); OpCancel (ByOrderId 9); taker Buy 105 (d 1) 2; OpMarket Buy (d 1) 6 ].
