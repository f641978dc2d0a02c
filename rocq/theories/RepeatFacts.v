(** Cases for C107. *)
From Verif Require Import ProofBase Types Accounting Position OrderBook OrderMargin MarketUpdate Exchange Spec SpecConfig SpecMarket SpecPanic Scenario ScenarioPanic ScenarioRenew SliceFacts.

Ltac one := split; [apply play_history; vm_compute; reflexivity|].
Ltac now1 := split; [vm_compute; reflexivity|].
Lemma repeat_case dbg : exists e outs e1 n e2 n', valid_config (L dbg) /\ history (L dbg) half_filled e outs /\
  step (L dbg) e (OpAmend 0 Buy (d 98) (d 4) 7) = Done (e1, Ok (OutLimit n)) /\ step (L dbg) e1 (OpAmend (lo_id n) Buy (d 98) (d 4) 7) = Done (e2, Ok (OutLimit n')) /\
  position_quantity (ex_pos e) = d 1 /\ lo_rem n = d 3 /\ lo_rem n' = d 4.
Proof. destruct dbg; (do 6 eexists; split; [apply L_ok|]; one; do 4 now1; vm_compute; reflexivity). Qed.
Lemma repeat_grows dbg : exists e outs o e1 n e2 n' e3 r, valid_config (L dbg) /\ history (L dbg) half_filled e outs /\ In o (ex_active e) /\ lo_id o = 0 /\ lo_rem o + lo_filled_qty o = d 2 /\
  step (L dbg) e (OpAmend 0 Buy (d 99) (d 2) 1) = Done (e1, Ok (OutLimit n)) /\ step (L dbg) e1 (OpAmend (lo_id n) Buy (d 99) (d 2) 1) = Done (e2, Ok (OutLimit n')) /\
  lo_rem n = lo_rem o /\ lo_rem n' = d 2 /\ step (L dbg) e2 (OpUpdate (RCandle sinking)) = Done (e3, Ok (OutUpdates [r])) /\ position_quantity (ex_pos e3) = d 3.
Proof. destruct dbg; (do 9 eexists; split; [apply L_ok|]; one; split; [left; reflexivity|]; do 7 now1; vm_compute; reflexivity). Qed.
