(** Limits for the examples of C89. *)
From Verif Require Import Base Types OrderMargin Exchange Spec Scenario SpecLoose.

(** Orders from 0.5 to 20 in steps of 0.5, prices from 10 to 500 in steps of 0.5, at most two open orders. *)
Definition narrow_pf : price_filter := {| pf_min := Some (d 10); pf_max := Some (d 500); pf_tick := 5000; pf_up := d 2; pf_down := 5000 |}.
Definition narrow_qf : quantity_filter := {| qf_min := Some 5000; qf_max := Some (d 20); qf_tick := 5000 |}.
Definition narrow : config := relax (demo_cfg Linear true) 2 narrow_pf narrow_qf.
(** Steps of 0.1 and bounds moved or dropped, ten open orders. *)
Definition wide_pf : price_filter := {| pf_min := Some (d 1); pf_max := None; pf_tick := 1000; pf_up := 0; pf_down := 5000 |}.
Definition wide_qf : quantity_filter := {| qf_min := None; qf_max := Some (d 100); qf_tick := 1000 |}.
Definition loose_ops : list op :=
  [ quote 100 101 1; OpMarket Buy (d 2) 1; OpLimit Buy (d 99) (d 2) 2; OpLimit Sell (d 104) 25000 3;
    OpLimit Buy (d 102) (d 1) 4; OpCancel (ByOrderId 1); taker Buy 105 (d 1) 2; quote 103 104 3; OpMarket Sell 5000 5 ].
(** An order too many, and one that needs the money it would take. *)
Definition crowded_ops : list op := [ quote 100 101 1; OpLimit Buy (d 99) (d 5) 1; OpLimit Buy (d 98) (d 5) 2; OpMarket Buy (d 1) 3 ].
