(** Cases for C101. *)
From Verif Require Import ProofBase Types Accounting Position OrderBook OrderMargin MarketUpdate Exchange Spec SpecConfig SpecMarket SpecMargin SpecPanic SpecMachine Scenario ScenarioPanic ScenarioAgain SliceFacts.

Ltac one := split; [apply play_history; vm_compute; reflexivity|].
Ltac now1 := split; [vm_compute; reflexivity|].
Lemma again_case dbg : exists e x f u g, valid_config (L dbg) /\ history (L dbg) two_bids e x /\ step (L dbg) e (OpUpdate (RCandle dip)) = Done (f, Ok (OutUpdates [u])) /\
  ~ due (L dbg) (ex_pos f) (ms_bid (ex_ms f)) (ms_ask (ex_ms f)) /\ position_quantity (ex_pos f) = d 2 /\ length (ex_active f) = 1%nat /\
  step (L dbg) f (OpUpdate (RCandle dip)) = Done (g, Ok (OutUpdates [])) /\ machine_of g = machine_of f.
Proof. destruct dbg; (do 5 eexists; split; [apply L_ok|]; one; now1; split; [vm_compute; intros H; apply H; reflexivity|]; do 3 now1; vm_compute; reflexivity). Qed.
Lemma sold_twice dbg : exists e x f u g u', valid_config (L dbg) /\ history (L dbg) two_bids e x /\ step (L dbg) e (OpUpdate sale) = Done (f, Ok (OutUpdates [u])) /\
  step (L dbg) f (OpUpdate sale) = Done (g, Ok (OutUpdates [u'])) /\ position_quantity (ex_pos f) = d 1 /\ position_quantity (ex_pos g) = d 2.
Proof. destruct dbg; (do 6 eexists; split; [apply L_ok|]; one; do 3 now1; vm_compute; reflexivity). Qed.
Lemma crash_twice dbg : exists e x f u v g, valid_config (L dbg) /\ history (L dbg) two_bids e x /\ step (L dbg) e (OpUpdate (RCandle crash)) = Done (f, Ok (OutUpdates [u; v])) /\
  step (L dbg) f (OpUpdate (RCandle crash)) = Done (g, Err (ERisk Liquidate)) /\ position_quantity (ex_pos f) = d 3 /\ ex_pos g = Neutral.
Proof. destruct dbg; (do 6 eexists; split; [apply L_ok|]; one; do 3 now1; vm_compute; reflexivity). Qed.
Lemma silent_case dbg : exists e x f g f' g', valid_config (L dbg) /\ history (L dbg) two_bids e x /\ length (ex_active e) = 2%nat /\
  step (L dbg) e (OpUpdate wider) = Done (f, Ok (OutUpdates [])) /\ machine_of f <> machine_of e /\ step (L dbg) f (OpUpdate wider) = Done (g, Ok (OutUpdates [])) /\ machine_of g = machine_of f /\
  step (L dbg) e (OpUpdate purchase) = Done (f', Ok (OutUpdates [])) /\ step (L dbg) f' (OpUpdate purchase) = Done (g', Ok (OutUpdates [])) /\ machine_of g' = machine_of f'.
Proof. destruct dbg; (do 6 eexists; split; [apply L_ok|]; one; do 2 now1; split; [vm_compute; discriminate|]; do 4 now1; vm_compute; reflexivity). Qed.
