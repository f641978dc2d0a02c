(** Order ids are consecutive numbers without a meaning. *)
From Verif Require Import Base Types Position OrderBook OrderMargin MarketUpdate Exchange Spec SpecMarket SpecMachine SpecCrash SpecMemory.

(** The same with all order ids larger by [n]. *)
Definition order_from (n : Z) (o : limit_order) : limit_order :=
  {| lo_uid := lo_uid o; lo_side := lo_side o; lo_price := lo_price o; lo_rem := lo_rem o; lo_id := lo_id o + n; lo_ts := lo_ts o; lo_filled := lo_filled o |}.
Definition update_from (n : Z) (u : order_update) : order_update :=
  match u with
  | PartiallyFilled o => PartiallyFilled (order_from n o)
  | FullyFilled f => FullyFilled {| fl_uid := fl_uid f; fl_side := fl_side f; fl_price := fl_price f; fl_rem := fl_rem f; fl_id := fl_id f + n;
                                    fl_ts := fl_ts f; fl_exec_ts := fl_exec_ts f; fl_avg := fl_avg f; fl_qty := fl_qty f |}
  end.
Definition answer_from (n : Z) (r : result error out) : result error out :=
  match r with
  | Ok (OutUpdates l) => Ok (OutUpdates (map (update_from n) l))
  | Ok (OutMarket o) => Ok (OutMarket {| fm_uid := fm_uid o; fm_side := fm_side o; fm_qty := fm_qty o; fm_id := fm_id o + n; fm_ts := fm_ts o;
                                         fm_exec_ts := fm_exec_ts o; fm_avg := fm_avg o; fm_filled := fm_filled o |})
  | Ok (OutLimit o) => Ok (OutLimit (order_from n o))
  | Ok OutUnit => Ok OutUnit
  | Err (EOrderIdNotFound i) => Err (EOrderIdNotFound (i + n))
  | Err e => Err e
  end.
Definition call_from (n : Z) (o : op) : op :=
  match o with
  | OpCancel (ByOrderId i) => OpCancel (ByOrderId (i + n))
  | OpAmend i sd p q uid => OpAmend (i + n) sd p q uid
  | _ => o
  end.
Definition state_from (n : Z) (m : machine) : machine :=
  {| m_book := m_book m; m_held := m_held m; m_reserved := m_reserved m; m_orders := map (order_from n) (m_orders m); m_bid := m_bid m; m_ask := m_ask m; m_time := m_time m; m_next := m_next m + n |}.
(** States and answers of the same calls after [v] more of fees and [n] more orders. *)
Definition after (v n : Z) (x : outcome (machine * list (result error out))) : outcome (machine * list (result error out)) :=
  match x with Done (m, l) => Done (with_fees v (state_from n m), map (answer_from n) l) | Panic w => Panic w end.

(** The same quote and time. *)
Definition same_market (e e' : exchange) : Prop := ms_bid (ex_ms e) = ms_bid (ex_ms e') /\ ms_ask (ex_ms e) = ms_ask (ex_ms e') /\ ms_ts (ex_ms e) = ms_ts (ex_ms e').
