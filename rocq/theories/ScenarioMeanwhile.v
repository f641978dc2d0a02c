(** Quotes for the examples of C105. *)
From Verif Require Import Base Types MarketUpdate Spec Scenario.

Definition moved : bba := {| bb_bid := d 104; bb_ask := d 105; bb_ts := 5 |}.
Definition fallen : bba := {| bb_bid := d 20; bb_ask := d 21; bb_ts := 5 |}.
