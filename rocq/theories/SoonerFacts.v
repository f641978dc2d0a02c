(** Cases for C104. *)
From Verif Require Import ProofBase Types Accounting Position OrderBook OrderMargin MarketUpdate Exchange Spec SpecConfig SpecMarket SpecMargin SpecPanic Scenario ScenarioPanic ScenarioSooner SliceFacts.

Ltac one := split; [apply play_history; vm_compute; reflexivity|].
Ltac now1 := split; [vm_compute; reflexivity|].
Lemma sooner_case dbg : exists e outs e1 x e2 o e3 e4, valid_config (L dbg) /\ history (L dbg) lopsided e outs /\
  step (L dbg) e (OpCancel (ByUserOrderId 2)) = Done (e1, Ok (OutLimit x)) /\ step (L dbg) e1 (OpMarket Buy (d 1) 7) = Done (e2, Ok o) /\
  step (L dbg) e (OpMarket Buy (d 1) 7) = Done (e3, Ok o) /\ step (L dbg) e3 (OpCancel (ByUserOrderId 2)) = Done (e4, Ok (OutLimit x)) /\
  position_quantity (ex_pos e2) = d 1 /\ length (ex_active e2) = 1%nat /\ wallet_of e4 = wallet_of e2.
Proof. destruct dbg; (do 8 eexists; split; [apply L_ok|]; one; do 6 now1; vm_compute; reflexivity). Qed.
Lemma sooner_margin dbg : exists e outs e1 x e2 o e3 e4, valid_config (L dbg) /\ history (L dbg) lopsided e outs /\
  step (L dbg) e (OpCancel (ByUserOrderId 1)) = Done (e1, Ok (OutLimit x)) /\ step (L dbg) e1 (OpMarket Buy (d 1) 7) = Done (e2, Ok o) /\
  step (L dbg) e (OpMarket Buy (d 1) 7) = Done (e3, Ok o) /\ step (L dbg) e3 (OpCancel (ByUserOrderId 1)) = Done (e4, Ok (OutLimit x)) /\
  order_margin_of e4 = 0 /\ order_margin_of e2 = d 110 /\ wallet_of e2 < wallet_of e4.
Proof. destruct dbg; (do 8 eexists; split; [apply L_ok|]; one; do 6 now1; vm_compute; reflexivity). Qed.
Lemma sooner_panic dbg : exists e outs e1 x e2 o e3, valid_config (L dbg) /\ history (L dbg) for_sale e outs /\
  step (L dbg) e (OpCancel (ByUserOrderId 2)) = Done (e1, Ok (OutLimit x)) /\ step (L dbg) e1 (OpMarket Sell (d 1) 7) = Done (e2, Ok o) /\
  step (L dbg) e (OpMarket Sell (d 1) 7) = Done (e3, Ok o) /\ step (L dbg) e3 (OpCancel (ByUserOrderId 2)) = Panic PCancelMargin.
Proof. destruct dbg; (do 7 eexists; split; [apply L_ok|]; one; do 3 now1; vm_compute; reflexivity). Qed.
