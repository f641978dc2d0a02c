(** Histories for the equity properties. *)
From Verif Require Import Base Types Position MarketUpdate Exchange Spec Scenario.

(** Quotes 1.8 and 1.9 throughout; 0.1 contracts are bought twice and both sold, a hundred times. *)
Fixpoint pump_rounds (n : nat) (ts : Z) : list op :=
  match n with
  | O => []
  | S n' => raw_quote 18 19 ts :: OpMarket Buy 1 1 :: OpMarket Buy 1 1 :: OpMarket Sell 2 1 :: pump_rounds n' (ts + 1)
  end.
Definition pump_ops : list op := pump_rounds 100 1.

Definition is_flat (e : exchange) : bool := match ex_pos e with Neutral => true | _ => false end.
Definition no_edge_b (m : Z) (f : fill) : bool :=
  match f_side f with Buy => m <=? f_price f | Sell => f_price f <=? m end.

(** An inverse short of 300 at 300, doubled at 100 and bought back at 100; no fees. *)
Definition short_cfg (dbg : bool) : config := demo Inverse dbg 1 0 0 (d 1000) 10.
Definition short_ops : list op :=
  [ quote 300 301 1; OpMarket Sell (d 300) 1; quote 100 101 2; OpMarket Sell (d 300) 2; quote 99 100 3;
    OpMarket Buy (d 600) 3 ].
