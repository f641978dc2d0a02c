(** A limit order that is never filled. *)
From Verif Require Import Base Types OrderBook OrderMargin MarketUpdate Exchange Spec SpecMarket.

(** The order as it rests. *)
Definition ghost (e : exchange) (sd : side) (p q uid : Z) : limit_order :=
  {| lo_uid := uid; lo_side := sd; lo_price := p; lo_rem := q; lo_id := ex_next_id e; lo_ts := ms_ts (ex_ms e); lo_filled := Unfilled |}.

(** Without the order with id [g] all later ids are one less. *)
Definition earlier (g i : Z) : Z := if g <? i then i - 1 else i.
Definition earlier_order (g : Z) (o : limit_order) : limit_order :=
  {| lo_uid := lo_uid o; lo_side := lo_side o; lo_price := lo_price o; lo_rem := lo_rem o; lo_id := earlier g (lo_id o); lo_ts := lo_ts o; lo_filled := lo_filled o |}.
Definition earlier_op (g : Z) (o : op) : op :=
  match o with
  | OpCancel (ByOrderId i) => OpCancel (ByOrderId (earlier g i))
  | OpAmend i sd p q uid => OpAmend (earlier g i) sd p q uid
  | _ => o
  end.
(** The call does not name the order, and names others by their ids only. *)
Definition leaves_alone (g : Z) (o : op) : Prop :=
  match o with
  | OpCancel (ByOrderId i) => i <> g
  | OpCancel (ByUserOrderId _) => False
  | OpAmend i _ _ _ _ => i <> g
  | _ => True
  end.
Definition data_of (o : op) : option raw_update := match o with OpUpdate ru | OpCheck ru => Some ru | _ => None end.
(** The market data does not reach the order. *)
Definition misses (g : limit_order) (o : op) : Prop := match data_of o with Some ru => touched ru g = None | None => True end.
(** Market data never fills more than one order at a time. *)
Definition hits (ru : raw_update) (o : limit_order) : bool := match touched ru o with Some _ => true | None => false end.
Definition one_hit (e : exchange) (o : op) : Prop := match data_of o with Some ru => (length (filter (hits ru) (ex_active e)) <= 1)%nat | None => True end.
Fixpoint one_by_one (c : config) (e : exchange) (ops : list op) : Prop :=
  match ops with
  | [] => True
  | o :: r => one_hit e o /\ match step c e o with Done (e', _) => one_by_one c e' r | Panic _ => True end
  end.
(** Accepted or refused. *)
Definition accepted {A} (r : result error A) : bool := match r with Ok _ => true | Err _ => false end.
