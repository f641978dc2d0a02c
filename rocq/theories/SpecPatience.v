(** Two accounts that differ in the price of their only order. *)
From Verif Require Import Base Types Position OrderBook MarketUpdate Exchange Spec SpecMarket SpecBargain.

(** The quantities traded in the update are not negative. *)
Definition real_trades (ru : raw_update) : Prop :=
  match ru with RTrade t => 0 <= tr_qty t | RSmart l _ _ => forall t, In t l -> 0 <= tr_qty t | _ => True end.

(** Both accounts have one order, for the same quantity; the price of the second is at least as good, and so harder to get. *)
Definition more_patient (e1 e2 : exchange) (a b : limit_order) : Prop :=
  ex_active e1 = [a] /\ ex_active e2 = [b] /\ lo_side b = lo_side a /\ lo_rem b = lo_rem a /\ no_worse (lo_side a) (lo_price b) (lo_price a).

(** Contracts that changed hands. *)
Definition moved (e f : exchange) : Z := Z.abs (position_quantity (ex_pos f) - position_quantity (ex_pos e)).
