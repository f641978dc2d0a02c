(** Cases for C95. *)
From Verif Require Import ProofBase Types Accounting Position OrderBook OrderMargin MarketUpdate Exchange Spec SpecConfig SpecMarket SpecMargin SpecPanic SpecBargain SpecPatience Scenario ScenarioPanic ScenarioPatience SliceFacts BargainFacts.

Lemma fills_case dbg : exists e1 x1 e2 x2 a b f1 r1 f2 r2, history (L dbg) eager e1 x1 /\ history (L dbg) calm e2 x2 /\ valid_config (L dbg) /\ more_patient e1 e2 a b /\ real_trades candle /\
  step (L dbg) e1 (OpUpdate candle) = Done (f1, Ok r1) /\ step (L dbg) e2 (OpUpdate candle) = Done (f2, Ok r2) /\ moved e1 f1 = 7000 /\ moved e2 f2 = 3000.
Proof.
  destruct dbg; (do 10 eexists; two; split; [apply L_ok|]; split; [do 4 (split; [vm_compute; reflexivity|]); vm_compute; discriminate|]; split; [intros t [<-|[<-|[]]]; cbn; lia|]; repeat done1; vm_compute; reflexivity).
Qed.
Lemma money_case dbg : exists e1 x1 e2 x2 a b f1 r1 f2 r2, history (L dbg) eager e1 x1 /\ history (L dbg) calm e2 x2 /\ valid_config (L dbg) /\ statement_of e1 = statement_of e2 /\ more_patient e1 e2 a b /\
  real_trades deep /\ - c_scale (L dbg) <= ct_maker (c_spec (L dbg)) <= c_scale (L dbg) /\
  step (L dbg) e1 (OpUpdate deep) = Done (f1, Ok r1) /\ step (L dbg) e2 (OpUpdate deep) = Done (f2, Ok r2) /\ moved e1 f1 = d 1 /\ moved e2 f2 = d 1 /\
  opens_or_reduces e1 (lo_side a) (moved e1 f1) /\ worth (L dbg) (d 100) f1 < worth (L dbg) (d 100) f2.
Proof.
  destruct dbg; (do 10 eexists; two; split; [apply L_ok|]; done1; split; [do 4 (split; [vm_compute; reflexivity|]); vm_compute; discriminate|]; split; [vm_compute; discriminate|]; split; [split; vm_compute; discriminate|]; do 4 done1;
  split; [left; vm_compute; reflexivity|]; vm_compute; reflexivity).
Qed.
Lemma missed_case dbg : exists e1 x1 e2 x2 a b f1 r1 f2 r2, history (L dbg) eager e1 x1 /\ history (L dbg) calm e2 x2 /\ valid_config (L dbg) /\ statement_of e1 = statement_of e2 /\ more_patient e1 e2 a b /\
  real_trades shallow /\ step (L dbg) e1 (OpUpdate shallow) = Done (f1, Ok r1) /\ step (L dbg) e2 (OpUpdate shallow) = Done (f2, Ok r2) /\ moved e1 f1 = d 1 /\ moved e2 f2 = 0 /\
  worth (L dbg) (d 100) f2 < worth (L dbg) (d 100) f1.
Proof.
  destruct dbg; (do 10 eexists; two; split; [apply L_ok|]; done1; split; [do 4 (split; [vm_compute; reflexivity|]); vm_compute; discriminate|]; split; [vm_compute; discriminate|]; do 4 done1; vm_compute; reflexivity).
Qed.
