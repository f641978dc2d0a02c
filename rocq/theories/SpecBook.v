(** Independent notions about orders read off the calls and their results. *)
From Verif Require Import Base Types OrderBook OrderMargin MarketUpdate Exchange Spec.

Definition calls (ops : list op) (outs : list (result error out)) : list (op * result error out) :=
  combine ops outs.

(** Limit orders accepted by a call, as returned to the user. *)
Definition accepted_in (h : op * result error out) : list limit_order :=
  match h with
  | (OpLimit _ _ _ _, Ok (OutLimit o)) => [o]
  | (OpAmend _ _ _ _ _, Ok (OutLimit o)) => [o]
  | _ => []
  end.
Definition accepted_orders ops outs : list limit_order := flat_map accepted_in (calls ops outs).

(** Ids handed to the user by a call. *)
Definition issued_in (h : op * result error out) : list Z :=
  match h with
  | (OpMarket _ _ _, Ok (OutMarket m)) => [fm_id m]
  | _ => map lo_id (accepted_in h)
  end.
Definition issued_ids ops outs : list Z := flat_map issued_in (calls ops outs).

(** Order updates reported by a call. *)
Definition reported_in (h : op * result error out) : list order_update :=
  match h with (OpUpdate _, Ok (OutUpdates l)) => l | _ => [] end.
Definition reported ops outs : list order_update := flat_map reported_in (calls ops outs).

Definition update_id (u : order_update) : Z :=
  match u with PartiallyFilled o => lo_id o | FullyFilled f => fl_id f end.

(** Orders that are over: fully filled, cancelled or replaced by an amend. *)
Definition finished_in (h : op * result error out) : list Z :=
  match h with
  | (OpUpdate _, Ok (OutUpdates l)) =>
      flat_map (fun u => match u with FullyFilled f => [fl_id f] | PartiallyFilled _ => [] end) l
  | (OpCancel _, Ok (OutLimit o)) => [lo_id o]
  | (OpAmend id _ _ _ _, Ok _) => [id]
  | _ => []
  end.
Definition finished ops outs : list Z := flat_map finished_in (calls ops outs).

(** Applying reported updates to a list of orders. *)
Definition apply_update (us : list order_update) (o : limit_order) : list limit_order :=
  match find (fun u => update_id u =? lo_id o) us with
  | None => [o]
  | Some (PartiallyFilled o') => [o']
  | Some (FullyFilled _) => []
  end.
Definition apply_updates (us : list order_update) (book : list limit_order) : list limit_order :=
  flat_map (apply_update us) book.

(** [o] is the resting remainder of the accepted order [a]. *)
Definition descends (a o : limit_order) : Prop :=
  lo_id a = lo_id o /\ lo_uid a = lo_uid o /\ lo_side a = lo_side o /\ lo_price a = lo_price o /\
  lo_ts a = lo_ts o /\ lo_filled a = Unfilled /\ lo_rem o + lo_filled_qty o = lo_rem a.

(** A report about the accepted order [a]. *)
Definition report_matches (a : limit_order) (u : order_update) : Prop :=
  match u with
  | PartiallyFilled o => descends a o /\ 0 < lo_rem o /\ 0 < lo_filled_qty o
  | FullyFilled f => fl_id f = lo_id a /\ fl_uid f = lo_uid a /\ fl_side f = lo_side a /\
      fl_price f = lo_price a /\ fl_ts f = lo_ts a /\ fl_qty f = lo_rem a /\ fl_avg f = lo_price a /\ fl_rem f = 0
  end.
