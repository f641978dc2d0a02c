(** Calls for the examples of C93. *)
From Verif Require Import Base Types Exchange Spec Scenario ScenarioPanic.

(** A long position of 1, a bid and an offer. *)
Definition resting : list op := [ quote 100 101 1; OpMarket Buy (d 1) 1; OpLimit Buy (d 98) (d 2) 2; OpLimit Sell (d 104) (d 1) 3 ].
Definition one_more : op := OpLimit Buy (d 97) (d 1) 4.

(** A long position of 2, a bid, and two offers at one price whose values round; then an offer that takes all that is left. *)
Definition tied : list op := [ raw_quote 4 5 1; OpMarket Buy 2 1; OpLimit Buy 3 10 2; OpLimit Sell 5 3 3; OpLimit Sell 5 1 4 ].
Definition the_rest : op := OpLimit Sell 8 1249 5.
