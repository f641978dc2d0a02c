(** Cases for C102. *)
From Coq Require Import Permutation.
From Verif Require Import ProofBase Types Accounting Position OrderBook OrderMargin MarketUpdate Exchange Spec SpecConfig SpecMarket SpecMargin SpecPanic SpecMachine SpecBatch SpecRenew Scenario ScenarioPanic
  SpecLoose ScenarioLoose ScenarioRenew SliceFacts LooseFacts.

Ltac one := split; [apply play_history; vm_compute; reflexivity|].
Ltac now1 := split; [vm_compute; reflexivity|].
Ltac lone := intros [|]; vm_compute; repeat constructor; intros [].
Lemma renew_case dbg : exists e outs o e', valid_config (L dbg) /\ history (L dbg) half_filled e outs /\ In o (ex_active e) /\ lo_rem o = d 1 /\ lo_filled_qty o = d 1 /\
  in_sync (L dbg) e /\ 0 <= wallet_of e /\ no_ties (ex_active e) /\ suits (L dbg) e (rest_of o 7) /\ position_quantity (ex_pos e) = d 1 /\
  step (L dbg) e (unchanged o 7) = Done (e', Ok (OutLimit (renewed e o 7))) /\ length (ex_active e') = 2%nat /\ map lo_id (ex_active e) <> map lo_id (ex_active e').
Proof.
  destruct dbg; (do 4 eexists; split; [apply L_ok|]; one; split; [left; reflexivity|]; do 3 now1; split; [vm_compute; discriminate|]; split; [lone|];
    split; [vm_compute; repeat split|]; do 3 now1; vm_compute; discriminate).
Qed.
Lemma renew_overtaken dbg : exists e outs o e', valid_config (L dbg) /\ history (L dbg) overtaken e outs /\ In o (ex_active e) /\ in_sync (L dbg) e /\ 0 <= wallet_of e /\ ex_pos e = Neutral /\
  step (L dbg) e (unchanged o 7) = Done (e', Err (EOrder GoodTillCrossingRejectedOrder)) /\ ex_active e' = [].
Proof. destruct dbg; (do 4 eexists; split; [apply L_ok|]; one; split; [left; reflexivity|]; now1; split; [vm_compute; discriminate|]; do 2 now1; vm_compute; reflexivity). Qed.
Lemma renew_crumb : exists e outs o e', valid_config narrow /\ history narrow crumb e outs /\ In o (ex_active e) /\ in_sync narrow e /\ 0 <= wallet_of e /\ no_ties (ex_active e) /\ lo_rem o = 3000 /\
  step narrow e (unchanged o 7) = Done (e', Err (EOrder QuantityTooLow)) /\ ex_active e' = [].
Proof. do 4 eexists; split; [apply narrow_wide|]; one; split; [left; reflexivity|]; now1; split; [vm_compute; discriminate|]; split; [lone|]; do 2 now1; vm_compute; reflexivity. Qed.
Lemma renew_tied dbg : exists e outs o, valid_config (T dbg) /\ history (T dbg) tied_ops e outs /\ In o (ex_active e) /\ in_sync (T dbg) e /\ 0 <= wallet_of e /\ suits (T dbg) e (rest_of o 7) /\
  step (T dbg) e (unchanged o 7) = Panic PCancelMarginGrows.
Proof. destruct dbg; (do 3 eexists; split; [apply tiny_ok|]; one; split; [left; reflexivity|]; now1; split; [vm_compute; discriminate|]; split; [vm_compute; repeat split|]; vm_compute; reflexivity). Qed.
