(** Batches of orders for the examples of C88. *)
From Verif Require Import Base Types Exchange Spec SpecBatch Scenario.

Definition bid_for (p q u : Z) : ticket := {| t_side := Buy; t_price := p; t_qty := q; t_uid := u |}.
Definition offer (p q u : Z) : ticket := {| t_side := Sell; t_price := p; t_qty := q; t_uid := u |}.

(** A long position of 1 and a resting bid. *)
Definition batch_cfg : config := demo_cfg Linear true.
Definition batch_start : list op := [ quote 100 101 1; OpMarket Buy (d 1) 1; OpLimit Buy (d 98) (d 1) 2 ].
Definition batch : list ticket := [ bid_for (d 99) (d 2) 3; offer (d 103) (d 1) 4; offer (d 104) (d 6) 5; bid_for (d 97) (d 5) 6 ].
Definition batch' : list ticket := [ offer (d 104) (d 6) 5; bid_for (d 97) (d 5) 6; bid_for (d 99) (d 2) 3; offer (d 103) (d 1) 4 ].

(** Ties at a price with a position to hedge, where the values round, and an order that takes the rest of the wallet. *)
Definition tie_start : list op := [ raw_quote 4 5 1; OpMarket Buy 2 1 ].
Definition tie_batch : list ticket := [ offer 8 1249 2; offer 5 3 3; offer 5 1 4 ].
Definition tie_batch' : list ticket := [ offer 8 1249 2; offer 5 1 4; offer 5 3 3 ].
Definition undo_batch : list ticket := [ bid_for 1 1 2; offer 5 3 3; offer 5 1 4 ].
