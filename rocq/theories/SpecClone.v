(** Independent definitions for copies of an exchange. *)
From Verif Require Import Base Types OrderBook MarketUpdate Exchange Clone.

(** The history [l] of calls and copies of a new exchange ends with [x] and the results [outs]. *)
Definition x_history (c : config) (l : list xop) (x : xchg) (outs : list (result error out)) : Prop :=
  exists x0, x_init c = Done x0 /\ x_run c x0 l = Done (x, outs).
Definition x_reachable (c : config) (x : xchg) : Prop := exists l outs, x_history c l x outs.

(** What a caller sees: the exchange without its allocated sizes. *)
Definition seen {A} (m : outcome (xchg * A)) : outcome (exchange * A) :=
  match m with
  | Done (x, a) => Done (x_ex x, a)
  | Panic p => Panic p
  end.

(** The number of resting orders. *)
Definition resting (x : xchg) : Z := Z.of_nat (length (ex_active (x_ex x))).

(** The market data may fill limit orders ([CAN_FILL_LIMIT_ORDERS]): everything but best bid and ask. *)
Definition can_trade (r : raw_update) : Prop :=
  match r with RBba _ => False | _ => True end.

(** The number of reports of complete fills, and the size of a vector without room after that many insertions: none, four,
    and then the next power of two. *)
Definition completed (l : list order_update) : nat :=
  length (filter (fun y => match y with FullyFilled _ => true | _ => false end) l).
Definition grown (n : nat) : Z := if (n =? 0)%nat then 0 else Z.max 4 (2 ^ Z.log2_up (Z.of_nat n)).
