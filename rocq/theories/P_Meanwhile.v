(** Property C105: cancelling before or after market data. *)
From Verif Require Import Base Types Position OrderBook OrderMargin MarketUpdate Exchange Spec SpecConfig SpecMarket SpecMargin SpecPanic SpecMachine Scenario ScenarioPanic ScenarioAgain ScenarioSooner
  ScenarioMeanwhile MeanwhileProof MeanwhileFacts.

(** C105: an order that is cancelled after market data that filled nothing could have been cancelled before it, with the same answers and the same outcome. *)
Theorem C105_earlier : forall c e ru f b g x, valid_config c -> reachable c e -> step c e (OpUpdate ru) = Done (f, Ok (OutUpdates [])) -> step c f (OpCancel b) = Done (g, Ok (OutLimit x)) ->
  exists f' g', step c e (OpCancel b) = Done (f', Ok (OutLimit x)) /\ step c f' (OpUpdate ru) = Done (g', Ok (OutUpdates [])) /\ machine_of g' = machine_of g.
Proof. exact idle_then_cancel. Qed.
Print Assumptions C105_earlier.

Example C105_earlier_case : forall dbg, exists e outs f g x f' g', valid_config (L dbg) /\ history (L dbg) two_bids e outs /\
  step (L dbg) e (OpUpdate purchase) = Done (f, Ok (OutUpdates [])) /\ step (L dbg) f (OpCancel (ByUserOrderId 1)) = Done (g, Ok (OutLimit x)) /\
  step (L dbg) e (OpCancel (ByUserOrderId 1)) = Done (f', Ok (OutLimit x)) /\ step (L dbg) f' (OpUpdate purchase) = Done (g', Ok (OutUpdates [])) /\
  machine_of g' = machine_of g /\ length (ex_active g) = 1%nat /\ machine_of g <> machine_of e.
Proof. exact idle_case. Qed.

(** C105: an order that is cancelled before a quote that is accepted could have been cancelled after it. *)
Theorem C105_later : forall c e b f x q g r, valid_config c -> reachable c e -> step c e (OpCancel b) = Done (f, Ok (OutLimit x)) -> step c f (OpUpdate (RBba q)) = Done (g, Ok r) ->
  exists f' g', step c e (OpUpdate (RBba q)) = Done (f', Ok r) /\ step c f' (OpCancel b) = Done (g', Ok (OutLimit x)) /\ machine_of g' = machine_of g.
Proof. exact cancel_then_quote. Qed.
Print Assumptions C105_later.

Example C105_later_case : forall dbg, exists e outs f g x f' g', valid_config (L dbg) /\ history (L dbg) for_sale e outs /\
  step (L dbg) e (OpCancel (ByUserOrderId 2)) = Done (f, Ok (OutLimit x)) /\ step (L dbg) f (OpUpdate (RBba moved)) = Done (g, Ok (OutUpdates [])) /\
  step (L dbg) e (OpUpdate (RBba moved)) = Done (f', Ok (OutUpdates [])) /\ step (L dbg) f' (OpCancel (ByUserOrderId 2)) = Done (g', Ok (OutLimit x)) /\
  machine_of g' = machine_of g /\ position_quantity (ex_pos g) = d 1.
Proof. exact quote_case. Qed.

(** C105, refuted for market data that fills the order: then it is too late to cancel. *)
Theorem C105_filled_refuted : forall dbg, exists e outs f g x f' u g' err, valid_config (L dbg) /\ history (L dbg) two_bids e outs /\
  step (L dbg) e (OpCancel (ByUserOrderId 1)) = Done (f, Ok (OutLimit x)) /\ step (L dbg) f (OpUpdate (RCandle dip)) = Done (g, Ok (OutUpdates [])) /\
  step (L dbg) e (OpUpdate (RCandle dip)) = Done (f', Ok (OutUpdates [u])) /\ step (L dbg) f' (OpCancel (ByUserOrderId 1)) = Done (g', Err err) /\
  position_quantity (ex_pos g) = 0 /\ position_quantity (ex_pos g') = d 2.
Proof. exact traded_meanwhile. Qed.
Print Assumptions C105_filled_refuted.

(** C105, refuted for a quote that liquidates: cancelling the order afterwards panics. *)
Theorem C105_liquidated_refuted : forall dbg, exists e outs f g x f', valid_config (L dbg) /\ history (L dbg) for_sale e outs /\
  step (L dbg) e (OpCancel (ByUserOrderId 2)) = Done (f, Ok (OutLimit x)) /\ step (L dbg) f (OpUpdate (RBba fallen)) = Done (g, Err (ERisk Liquidate)) /\
  step (L dbg) e (OpUpdate (RBba fallen)) = Done (f', Err (ERisk Liquidate)) /\ step (L dbg) f' (OpCancel (ByUserOrderId 2)) = Panic PCancelMargin.
Proof. exact liquidated_meanwhile. Qed.
Print Assumptions C105_liquidated_refuted.
