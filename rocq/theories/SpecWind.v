(** Leaving the market: cancelling everything and closing the position. *)
From Coq Require Import Permutation.
From Verif Require Import Base Types Accounting Position OrderBook OrderMargin MarketUpdate Exchange Spec SpecRules SpecMarket.

(** Cancellations by order id, one after the other. *)
Definition cancels (ids : list Z) : list op := map (fun i => OpCancel (ByOrderId i)) ids.
(** The ids of all resting orders, in some order. *)
Definition everything (e : exchange) (ids : list Z) : Prop := Permutation ids (map lo_id (ex_active e)).
(** The orders [os] were handed back for the ids. *)
Definition handed_back (ids : list Z) (os : list limit_order) (outs : list (result error out)) : Prop :=
  outs = map (fun o => Ok (OutLimit o)) os /\ map lo_id os = ids.
(** Start with the last order of the book. *)
Definition last_first (e : exchange) : list Z := rev (map lo_id (ex_active e)).

(** The order that closes the position, if there is one. *)
Definition closing (e : exchange) (uid : Z) : list op :=
  match ex_pos e with
  | Neutral => []
  | pos => [OpMarket (closing_side pos) (Z.abs (position_quantity pos)) uid]
  end.
(** An order of the size of the position is allowed, there is a quote, and the margin to release is not zero and, in debug builds,
    is what was posted. *)
Definition closable (c : config) (e : exchange) : Prop :=
  let q := Z.abs (position_quantity (ex_pos e)) in
  let m := margin_at c q (position_entry_price (ex_pos e)) in
  ex_pos e <> Neutral ->
  quantity_allowed (ct_qf (c_spec c)) q /\ 0 < taker_price e (closing_side (ex_pos e)) /\ 0 < m /\ (c_dbg c = true -> position_margin_of e = m).

(** Neither orders nor a position. *)
Definition left_market (e : exchange) : Prop := ex_active e = [] /\ ex_pos e = Neutral /\ order_margin_of e = 0.
(** The same money everywhere. *)
Definition same_money (e e' : exchange) : Prop :=
  wallet_of e' = wallet_of e /\ order_margin_of e' = order_margin_of e /\ position_margin_of e' = position_margin_of e /\ fees_paid e' = fees_paid e.
Definition only_updates (ops : list op) : Prop := forall o, In o ops -> match o with OpUpdate _ => True | _ => False end.
