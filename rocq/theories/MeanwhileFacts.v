(** Cases for C105. *)
From Verif Require Import ProofBase Types Accounting Position OrderBook OrderMargin MarketUpdate Exchange Spec SpecConfig SpecMarket SpecMargin SpecPanic SpecMachine Scenario ScenarioPanic ScenarioAgain
  ScenarioSooner ScenarioMeanwhile SliceFacts.

Ltac one := split; [apply play_history; vm_compute; reflexivity|].
Ltac now1 := split; [vm_compute; reflexivity|].
Lemma idle_case dbg : exists e outs f g x f' g', valid_config (L dbg) /\ history (L dbg) two_bids e outs /\
  step (L dbg) e (OpUpdate purchase) = Done (f, Ok (OutUpdates [])) /\ step (L dbg) f (OpCancel (ByUserOrderId 1)) = Done (g, Ok (OutLimit x)) /\
  step (L dbg) e (OpCancel (ByUserOrderId 1)) = Done (f', Ok (OutLimit x)) /\ step (L dbg) f' (OpUpdate purchase) = Done (g', Ok (OutUpdates [])) /\
  machine_of g' = machine_of g /\ length (ex_active g) = 1%nat /\ machine_of g <> machine_of e.
Proof. destruct dbg; (do 7 eexists; split; [apply L_ok|]; one; do 6 now1; vm_compute; discriminate). Qed.
Lemma quote_case dbg : exists e outs f g x f' g', valid_config (L dbg) /\ history (L dbg) for_sale e outs /\
  step (L dbg) e (OpCancel (ByUserOrderId 2)) = Done (f, Ok (OutLimit x)) /\ step (L dbg) f (OpUpdate (RBba moved)) = Done (g, Ok (OutUpdates [])) /\
  step (L dbg) e (OpUpdate (RBba moved)) = Done (f', Ok (OutUpdates [])) /\ step (L dbg) f' (OpCancel (ByUserOrderId 2)) = Done (g', Ok (OutLimit x)) /\
  machine_of g' = machine_of g /\ position_quantity (ex_pos g) = d 1.
Proof. destruct dbg; (do 7 eexists; split; [apply L_ok|]; one; do 5 now1; vm_compute; reflexivity). Qed.
Lemma traded_meanwhile dbg : exists e outs f g x f' u g' err, valid_config (L dbg) /\ history (L dbg) two_bids e outs /\
  step (L dbg) e (OpCancel (ByUserOrderId 1)) = Done (f, Ok (OutLimit x)) /\ step (L dbg) f (OpUpdate (RCandle dip)) = Done (g, Ok (OutUpdates [])) /\
  step (L dbg) e (OpUpdate (RCandle dip)) = Done (f', Ok (OutUpdates [u])) /\ step (L dbg) f' (OpCancel (ByUserOrderId 1)) = Done (g', Err err) /\
  position_quantity (ex_pos g) = 0 /\ position_quantity (ex_pos g') = d 2.
Proof. destruct dbg; (do 9 eexists; split; [apply L_ok|]; one; do 5 now1; vm_compute; reflexivity). Qed.
Lemma liquidated_meanwhile dbg : exists e outs f g x f', valid_config (L dbg) /\ history (L dbg) for_sale e outs /\
  step (L dbg) e (OpCancel (ByUserOrderId 2)) = Done (f, Ok (OutLimit x)) /\ step (L dbg) f (OpUpdate (RBba fallen)) = Done (g, Err (ERisk Liquidate)) /\
  step (L dbg) e (OpUpdate (RBba fallen)) = Done (f', Err (ERisk Liquidate)) /\ step (L dbg) f' (OpCancel (ByUserOrderId 2)) = Panic PCancelMargin.
Proof. destruct dbg; (do 6 eexists; split; [apply L_ok|]; one; do 3 now1; vm_compute; reflexivity). Qed.
