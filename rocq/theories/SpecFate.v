(** Independent definitions about the fate of limit orders, read off the calls and their results. *)
From Verif Require Import Base Types OrderBook MarketUpdate Exchange Spec SpecBook SpecTrack.

(** Ids of orders reported as fully filled. *)
Definition completed_in (h : call) : list Z :=
  flat_map (fun u => match u with FullyFilled f => [fl_id f] | PartiallyFilled _ => [] end) (reported_in h).
(** Ids of orders cancelled by the user or taken out by an amend, whether or not the amend succeeded. *)
Definition withdrawn_in (h : call) : list Z :=
  match h with
  | (OpCancel _, Ok (OutLimit o)) => [lo_id o]
  | (OpAmend id _ p q _, r) =>
      if well_formed p q then
        match r with Err EOrderNoLongerActive | Err (EOrderIdNotFound _) => [] | _ => [id] end
      else []
  | _ => []
  end.
Definition completed ops outs : list Z := flat_map completed_in (calls ops outs).
Definition withdrawn ops outs : list Z := flat_map withdrawn_in (calls ops outs).
(** Ids of accepted limit orders. *)
Definition accepted_ids ops outs : list Z := map lo_id (accepted_orders ops outs).
