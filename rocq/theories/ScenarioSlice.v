(** Market orders in parts for the examples of C90. *)
From Verif Require Import Base Types Position Exchange Spec SpecSlice Scenario ScenarioPanic.

(** One decimal place: 0.6 contracts at 0.5, at once or as twice 0.3. *)
Definition cheap_start : list op := [ raw_quote 4 5 1 ].
Definition halves : list Z := [ 3; 3 ].
(** A fee of ten percent and no leverage: money for 9.09 contracts with their fee. *)
Definition costly (dbg : bool) : config := demo Linear dbg 1 2 1000 (d 1000) 10.
Definition costly_start : list op := [ quote 99 100 1 ].
Definition most_and_rest : list Z := [ d 9; 5000 ].
(** A long of 0.6 that can be closed at once. *)
Definition held_start : list op := [ raw_quote 4 5 1; OpMarket Buy 6 1 ].
(** A long of 9 that lost, and a long of 5 that won. *)
Definition lost_start : list op := [ quote 99 100 1; OpMarket Buy (d 9) 1; quote 60 61 2 ].
Definition won_start : list op := [ quote 100 101 1; OpMarket Buy (d 5) 1; quote 200 201 2 ].
(** The reading of a run that is used below. *)
Definition after (c : config) (start : list op) (o : list op) : outcome (exchange * list (result error out)) :=
  match play c start with Done (e, _) => run c e o | Panic w => Panic w end.
