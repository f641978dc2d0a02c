(** Property C102: amending an order to what it already is. *)
From Coq Require Import Permutation.
From Verif Require Import Base Types Position OrderBook OrderMargin MarketUpdate Exchange Spec SpecConfig SpecMarket SpecMargin SpecPanic SpecMachine SpecBatch SpecRenew Scenario ScenarioPanic ScenarioLoose
  ScenarioRenew RenewProof RenewFacts.

(** C102: if what is left of an order could be sent as a new order, amending the order to its own side, price and total quantity is accepted: the same order rests under a new id
    with no fills to its name, and wallet, margins, position and money are what they were. *)
Theorem C102_same : forall c e o uid, valid_config c -> reachable c e -> in_sync c e -> 0 <= wallet_of e ->
  (ex_pos e = Neutral \/ no_ties (ex_active e) \/ exists g, exact_book (c_kind c) (c_scale c) g (position_quantity (ex_pos e)) (ex_active e)) ->
  In o (ex_active e) -> suits c e (rest_of o uid) ->
  exists e', step c e (unchanged o uid) = Done (e', Ok (OutLimit (renewed e o uid))) /\ Permutation (ex_active e ++ [renewed e o uid]) (o :: ex_active e') /\
    wallet_of e' = wallet_of e /\ order_margin_of e' = order_margin_of e /\ statement_of e' = statement_of e /\ position_margin_of e' = position_margin_of e.
Proof. exact (fun c e o uid V R S W C O => renew_ok c V e R S W C o O uid). Qed.
Print Assumptions C102_same.

Example C102_same_case : forall dbg, exists e outs o e', valid_config (L dbg) /\ history (L dbg) half_filled e outs /\ In o (ex_active e) /\ lo_rem o = d 1 /\ lo_filled_qty o = d 1 /\
  in_sync (L dbg) e /\ 0 <= wallet_of e /\ no_ties (ex_active e) /\ suits (L dbg) e (rest_of o 7) /\ position_quantity (ex_pos e) = d 1 /\
  step (L dbg) e (unchanged o 7) = Done (e', Ok (OutLimit (renewed e o 7))) /\ length (ex_active e') = 2%nat /\ map lo_id (ex_active e) <> map lo_id (ex_active e').
Proof. exact renew_case. Qed.

(** C102: if it could not, the amendment is refused and the order is lost. *)
Theorem C102_lost : forall c e o uid, valid_config c -> reachable c e -> in_sync c e -> 0 <= wallet_of e ->
  (ex_pos e = Neutral \/ no_ties (ex_active e) \/ exists g, exact_book (c_kind c) (c_scale c) g (position_quantity (ex_pos e)) (ex_active e)) ->
  In o (ex_active e) -> ~ suits c e (rest_of o uid) ->
  exists e' err, step c e (unchanged o uid) = Done (e', Err (EOrder err)) /\ Permutation (ex_active e) (o :: ex_active e') /\
    statement_of e' = statement_of e /\ position_margin_of e' = position_margin_of e.
Proof. exact (fun c e o uid V R S W C O => renew_lost c V e R S W C o O uid). Qed.
Print Assumptions C102_lost.

(** C102, refuted without the condition: the quote has moved past the order. *)
Theorem C102_overtaken_refuted : forall dbg, exists e outs o e', valid_config (L dbg) /\ history (L dbg) overtaken e outs /\ In o (ex_active e) /\ in_sync (L dbg) e /\ 0 <= wallet_of e /\ ex_pos e = Neutral /\
  step (L dbg) e (unchanged o 7) = Done (e', Err (EOrder GoodTillCrossingRejectedOrder)) /\ ex_active e' = [].
Proof. exact renew_overtaken. Qed.
Print Assumptions C102_overtaken_refuted.

(** C102, refuted without the condition: less is left of the order than the smallest order. *)
Theorem C102_crumb_refuted : exists e outs o e', valid_config narrow /\ history narrow crumb e outs /\ In o (ex_active e) /\ in_sync narrow e /\ 0 <= wallet_of e /\ no_ties (ex_active e) /\ lo_rem o = 3000 /\
  step narrow e (unchanged o 7) = Done (e', Err (EOrder QuantityTooLow)) /\ ex_active e' = [].
Proof. exact renew_crumb. Qed.
Print Assumptions C102_crumb_refuted.

(** C102, refuted without the condition on the book: the amendment panics. *)
Theorem C102_tied_refuted : forall dbg, exists e outs o, valid_config (T dbg) /\ history (T dbg) tied_ops e outs /\ In o (ex_active e) /\ in_sync (T dbg) e /\ 0 <= wallet_of e /\ suits (T dbg) e (rest_of o 7) /\
  step (T dbg) e (unchanged o 7) = Panic PCancelMarginGrows.
Proof. exact renew_tied. Qed.
Print Assumptions C102_tied_refuted.
