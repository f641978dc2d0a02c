(** Several limit orders one after the other. *)
From Verif Require Import Base Types OrderBook OrderMargin MarketUpdate Exchange Spec SpecMachine.

Record ticket := { t_side : side; t_price : Z; t_qty : Z; t_uid : Z }.
Definition sent (t : ticket) : op := OpLimit (t_side t) (t_price t) (t_qty t) (t_uid t).

(** The order is fine in itself: positive, accepted by both filters, and it does not execute immediately. *)
Definition suits (c : config) (e : exchange) (t : ticket) : Prop :=
  0 < t_price t /\ 0 < t_qty t /\ quantity_fault (ct_qf (c_spec c)) (t_qty t) = None /\
  price_fault (c_scale c) (ct_pf (c_spec c)) (Z.quot (ms_bid (ex_ms e) + ms_ask (ex_ms e)) 2) (t_price t) = None /\
  match t_side t with Buy => t_price t < ms_ask (ex_ms e) | Sell => ms_bid (ex_ms e) < t_price t end.

(** The orders as they rest, numbered from [i] on. *)
Fixpoint entered (ts i : Z) (l : list ticket) : list limit_order :=
  match l with
  | [] => []
  | t :: r => {| lo_uid := t_uid t; lo_side := t_side t; lo_price := t_price t; lo_rem := t_qty t; lo_id := i; lo_ts := ts; lo_filled := Unfilled |}
              :: entered ts (i + 1) r
  end.
Definition book_with (e : exchange) (l : list ticket) : list limit_order := ex_active e ++ entered (ms_ts (ex_ms e)) (ex_next_id e) l.

(** All of them are accepted. *)
Definition accepts (c : config) (e : exchange) (l : list ticket) (e' : exchange) : Prop :=
  exists outs, run c e (map sent l) = Done (e', outs) /\ forall r, In r outs -> exists o, r = Ok o.

(** An order without its id and its time. *)
Definition shape (o : limit_order) : side * Z * Z * Z := (lo_side o, lo_price o, lo_rem o, lo_uid o).

(** Cancelling by exchange id, and the orders that are left. *)
Definition dropped (i : Z) : op := OpCancel (ByOrderId i).
Definition without (l : list Z) (b : list limit_order) : list limit_order := filter (fun o => negb (existsb (Z.eqb (lo_id o)) l)) b.
