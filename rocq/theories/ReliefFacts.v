(** Cases for C93. *)
From Verif Require Import ProofBase Types Position OrderBook OrderMargin MarketUpdate Exchange Spec SpecConfig SpecMargin SpecPanic SpecMachine SpecBatch Scenario ScenarioPanic ScenarioRelief SliceFacts.

Lemma relief_market_case dbg : exists e outs e1 x e2 o e3, history (L dbg) resting e outs /\ valid_config (L dbg) /\ step (L dbg) e (OpCancel (ByOrderId 1)) = Done (e1, Ok (OutLimit x)) /\
  step (L dbg) e (OpMarket Buy (d 1) 9) = Done (e2, Ok o) /\ step (L dbg) e1 (OpMarket Buy (d 1) 9) = Done (e3, Ok o) /\
  position_quantity (ex_pos e3) = d 2 /\ length (ex_active e3) = 1%nat /\ wallet_of e2 < wallet_of e3.
Proof.
  destruct dbg; (do 7 eexists; split; [apply play_history; vm_compute; reflexivity|]; split; [apply L_ok|]; repeat (split; [vm_compute; reflexivity|]); vm_compute; reflexivity).
Qed.
Lemma relief_limit_case dbg : exists e outs e1 x e2 o e3, history (L dbg) resting e outs /\ valid_config (L dbg) /\ step (L dbg) e (OpCancel (ByOrderId 1)) = Done (e1, Ok (OutLimit x)) /\
  step (L dbg) e one_more = Done (e2, Ok (OutLimit o)) /\ no_ties (ex_active e2) /\ step (L dbg) e1 one_more = Done (e3, Ok (OutLimit o)) /\
  length (ex_active e2) = 3%nat /\ length (ex_active e3) = 2%nat /\ wallet_of e2 < wallet_of e3.
Proof.
  destruct dbg; (do 7 eexists; split; [apply play_history; vm_compute; reflexivity|]; split; [apply L_ok|]; do 2 (split; [vm_compute; reflexivity|]);
  split; [intros [|]; vm_compute; repeat constructor; cbn; intuition congruence|]; repeat (split; [vm_compute; reflexivity|]); vm_compute; reflexivity).
Qed.
Lemma relief_limit_tie dbg : exists e outs e1 x e2 o e3, history (tiny Linear dbg) tied e outs /\ valid_config (tiny Linear dbg) /\ step (tiny Linear dbg) e (OpCancel (ByOrderId 1)) = Done (e1, Ok (OutLimit x)) /\
  step (tiny Linear dbg) e the_rest = Done (e2, Ok (OutLimit o)) /\ step (tiny Linear dbg) e1 the_rest = Done (e3, Err (ERisk NotEnoughAvailableBalance)) /\
  wallet_of e < wallet_of e1 /\ order_margin_of e1 < order_margin_of e.
Proof.
  destruct dbg; (do 7 eexists; split; [apply play_history; vm_compute; reflexivity|]; split; [apply tiny_ok|]; repeat (split; [vm_compute; reflexivity|]); vm_compute; reflexivity).
Qed.
