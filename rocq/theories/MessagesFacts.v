(** Cases for C100. *)
From Coq Require Import String.
From Verif Require Import ProofBase Types Position OrderBook OrderMargin MarketUpdate Exchange Spec SpecConfig SpecMarket SpecPanic Printed SpecPrinted Messages SpecMessages Scenario ScenarioPanic SliceFacts.
Open Scope string_scope.

Lemma error_case : exists e x e1 e2, valid_config (L true) /\ history (L true) [quote 100 101 1] e x /\
  step (L true) e (OpLimit Buy (d 101) (d 1) 1) = Done (e1, Err (EOrder GoodTillCrossingRejectedOrder)) /\
  error_text show_int 101 101 (ACall (EOrder GoodTillCrossingRejectedOrder)) =
    "The limit order `RePricing` was `GoodTillCrossing` leading to its rejection as the limit_price 101 Quote locks or crosses the away market quotation price 101 Quote" /\
  step (L true) e (OpLimit Buy (d 99) (d 100) 1) = Done (e2, Err (ERisk NotEnoughAvailableBalance)) /\
  error_text show_int 99 101 (ACall (ERisk NotEnoughAvailableBalance)) = "The `Trader` does not have enough balance.".
Proof.
  do 4 eexists. split; [apply L_ok|]. split; [apply play_history; vm_compute; reflexivity|]. split; [vm_compute; reflexivity|]. split; [reflexivity|]. split; [vm_compute; reflexivity|]. reflexivity.
Qed.
Lemma unknown_case : exists e x, valid_config (L true) /\ history (L true) [quote 100 101 1] e x /\
  step (L true) e (OpCancel (ByOrderId 7)) = Done (e, Err (EOrderIdNotFound 7)) /\ step (L true) e (OpCancel (ByOrderId 8)) = Done (e, Err (EOrderIdNotFound 8)) /\
  forall num p a, error_text num p a (ACall (EOrderIdNotFound 7)) = error_text num p a (ACall (EOrderIdNotFound 8)).
Proof.
  do 2 eexists. split; [apply L_ok|]. split; [apply play_history; vm_compute; reflexivity|]. split; [vm_compute; reflexivity|]. split; [vm_compute; reflexivity|]. reflexivity.
Qed.
