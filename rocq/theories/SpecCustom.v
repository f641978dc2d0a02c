(** Rules for market updates of any kind, on the reference machine of SpecMachine.v. *)
From Verif Require Import Base Types Accounting Position OrderBook OrderMargin MarketUpdate Exchange Custom Spec SpecMarket SpecFlow SpecMargin SpecMachine.

(** A history that mixes ordinary calls with updates of any kind. *)
Definition mixed (c : config) (ops : list xop) (e : exchange) (outs : list (result error out)) : Prop :=
  exists e0, init c = Done e0 /\ x_run c e0 ops = Done (e, outs).
Definition mixed_reachable (c : config) (e : exchange) : Prop := exists ops outs, mixed c ops e outs.

(** The answer of an update for an order. *)
Definition answer (k : custom) (o : limit_order) : option Z :=
  match cu_fill k o with Done f => f | Panic _ => None end.
(** The answers make sense: nothing, or a part of what is left. *)
Definition sensible (k : custom) (o : limit_order) : Prop :=
  cu_fill k o = Done None \/ exists q, cu_fill k o = Done (Some q) /\ 0 < q <= lo_rem o.

(** [q] contracts of the resting order [o] are filled at its limit price at time [ts]: it leaves the book or stays with its
    remainder, the fill is booked and margin no longer needed is freed. *)
Definition m_take (c : config) (ts : Z) (m : machine) (o : limit_order) (q : Z) : machine :=
  let l := match reported_as (c_scale c) o q ts with
           | FullyFilled _ => take_out (named (ByOrderId (lo_id o))) (m_orders m)
           | PartiallyFilled o' => map (fun x => if lo_id x =? lo_id o then o' else x) (m_orders m)
           end in
  let m1 := m_fill c m {| f_side := lo_side o; f_qty := q; f_price := lo_price o; f_rate := ct_maker (c_spec c) |} in
  with_orders m1 l (Z.min (m_reserved m) (need c l (m_pos m1))).

(** Every resting order meets the update once, oldest place first. *)
Definition x_meet (c : config) (k : custom) (m : machine) (o : limit_order) : machine :=
  match answer k o with None => m | Some q => m_take c (cu_ts k) m o q end.
Definition x_meet_all (c : config) (k : custom) (m : machine) : machine :=
  if cu_can k then fold_left (x_meet c k) (m_orders m) m else m.
Definition x_reports (c : config) (k : custom) (l : list limit_order) : list order_update :=
  if cu_can k
  then flat_map (fun o => match answer k o with Some q => [reported_as (c_scale c) o q (cu_ts k)] | None => [] end) l
  else [].

(** Bid, ask and time are those the update left behind; a position that is due is closed at them, otherwise the orders
    meet the update. *)
Definition x_quoted (m : machine) (ms : market_state) (ts : Z) : machine :=
  {| m_book := m_book m; m_held := m_held m; m_reserved := m_reserved m; m_orders := m_orders m;
     m_bid := ms_bid ms; m_ask := ms_ask ms; m_time := ts; m_next := m_next m |}.
Definition x_moved (c : config) (k : custom) (ms : market_state) (m : machine) : machine * result error out :=
  let m1 := x_quoted m ms (cu_ts k) in
  if m_due c m1 then
    let sd := if 0 <? m_pos m1 then Sell else Buy in
    (with_id (m_fill c m1 (taken c m1 sd (Z.abs (m_pos m1)))), Err (ERisk Liquidate))
  else (x_meet_all c k m1, Ok (OutUpdates (x_reports c k (m_orders m1)))).
