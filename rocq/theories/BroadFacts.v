(** Cases for C103. *)
From Coq Require Import Permutation.
From Verif Require Import ProofBase Types Accounting Position OrderBook OrderMargin MarketUpdate Exchange Spec SpecConfig SpecMarket SpecBroad Scenario ScenarioPanic ScenarioAgain ScenarioBroad SliceFacts.

Ltac one := split; [apply play_history; vm_compute; reflexivity|].
Ltac now1 := split; [vm_compute; reflexivity|].
Lemma broad_case dbg : exists e x f g h l m n, valid_config (L dbg) /\ history (L dbg) two_bids e x /\ (forall o, In o (ex_active e) -> lo_side o = Buy) /\
  broader sale busy /\ broader busy around /\
  step (L dbg) e (OpUpdate sale) = Done (f, Ok (OutUpdates l)) /\ step (L dbg) e (OpUpdate busy) = Done (g, Ok (OutUpdates m)) /\ step (L dbg) e (OpUpdate around) = Done (h, Ok (OutUpdates n)) /\
  map lo_rem (ex_active f) = [d 1; d 1] /\ map lo_rem (ex_active g) = [] /\ map lo_rem (ex_active h) = [] /\
  position_quantity (ex_pos f) = d 1 /\ position_quantity (ex_pos g) = d 3 /\ position_quantity (ex_pos h) = d 3.
Proof.
  assert (B1 : broader sale busy) by (split; [intros t [<-|[<-|[]]]; reflexivity | left; reflexivity]).
  assert (B2 : broader busy around) by (intros t [<-|[<-|[]]]; vm_compute; split; discriminate).
  destruct dbg; (do 8 eexists; split; [apply L_ok|]; one; split; [vm_compute; intros o [<-|[<-|[]]]; reflexivity|]; split; [exact B1|]; split; [exact B2|]; do 8 now1; vm_compute; reflexivity).
Qed.
Lemma offers_case dbg : exists e x f h l n, valid_config (L dbg) /\ history (L dbg) one_offer e x /\ (forall o, In o (ex_active e) -> lo_side o = Sell) /\ broader bought bought_more /\
  step (L dbg) e (OpUpdate bought) = Done (f, Ok (OutUpdates l)) /\ step (L dbg) e (OpUpdate bought_more) = Done (h, Ok (OutUpdates n)) /\
  position_quantity (ex_pos f) = - d 1 /\ position_quantity (ex_pos h) = - d 2 /\ map lo_rem (ex_active f) = [d 2] /\ map lo_rem (ex_active h) = [d 1].
Proof.
  destruct dbg; (do 6 eexists; split; [apply L_ok|]; one; split; [vm_compute; intros o [<-|[]]; reflexivity|]; split; [vm_compute; repeat split; discriminate|]; do 5 now1; vm_compute; reflexivity).
Qed.
