(** Histories of a build without overflow checks that go on after an overflow. *)
From Verif Require Import Base Types Accounting OrderBook OrderMargin Tracker Exchange Spec SpecConfig SpecPanic Scenario ScenarioPanic
  Width Fixed SpecFixed ScenarioFixed Release SpecRelease.

(** An account of 1000 buys so much at 100 that the value of the order, with its fee, just leaves the [w] bit type. *)
Definition greedy_qty (w : Z) : Z := d ((2 ^ (w - 1) - 1) / d 100).
Definition greedy (w : Z) : list op := [quote 99 100 1; OpMarket Buy (greedy_qty w) 1].
(** An account that may hold ten times its capital sells twice at 1 what fills more than half of the type. *)
Definition big_qty (w : Z) : Z := d (6 * 2 ^ (w - 1) / 10 / d 1).
Definition oversold (w : Z) : list op := [quote 1 2 1; OpMarket Sell (big_qty w) 1; OpMarket Sell (big_qty w) 2].
Definition rich_cfg (w : Z) : config := demo Linear false 10 2 6 (d (big_qty w / d 1)) 10.
(** A small limit order is funded; the sum of its value and that of the second one wraps around. *)
Definition second_qty (w : Z) : Z := d ((2 ^ (w - 1) - 1) / d 98 - 1).
Definition free_order (w : Z) : list op := [quote 99 100 1; OpLimit Buy (d 98) (d 5) 1; OpLimit Buy (d 98) (second_qty w) 2].
