(** Vocabulary of the overflow properties. *)
From Verif Require Import Base Types Accounting OrderBook OrderMargin Exchange Width Fixed Spec.

(** Calls on a fresh exchange over [w] bit integers. *)
Definition w_play (w : Z) (c : config) (ops : list op) : checked (exchange * list (result error out)) :=
  e0 <~ w_init w c ;; w_run w c e0 ops.
(** The same over unbounded integers. *)
Definition u_play (c : config) (ops : list op) : outcome (exchange * list (result error out)) :=
  e0 <- init c ;; run c e0 ops.

(** Largest and smallest number of a signed [w] bit integer. *)
Definition in_range (w z : Z) : Prop := - 2 ^ (w - 1) <= z <= 2 ^ (w - 1) - 1.

(** [n] times: place the order and cancel it; [id] is the id the first order gets. *)
Fixpoint churn (sd : side) (p q uid id : Z) (n : nat) : list op :=
  match n with
  | O => []
  | S k => OpLimit sd p q uid :: OpCancel (ByOrderId id) :: churn sd p q uid (id + 1) k
  end.

(** Everything ever booked to the order margin account. *)
Definition om_debits (e : exchange) : Z := ta_debits (get_account (ex_acc e) ORDER_MARGIN).
