(** Cases for C90. *)
From Verif Require Import ProofBase Types Position Exchange Spec SpecConfig SpecRules SpecMarket SpecSlice Scenario ScenarioPanic ScenarioSlice.

Lemma tiny_ok dbg : valid_config (tiny Linear dbg).
Proof. constructor; cbn; lia. Qed.
Lemma costly_ok dbg : valid_config (costly dbg).
Proof. constructor; vm_compute; intuition congruence. Qed.
Lemma L_ok dbg : valid_config (L dbg).
Proof. constructor; vm_compute; intuition congruence. Qed.
Ltac oks := intros r H; repeat (destruct H as [<-|H]; [eexists; reflexivity|]); destruct H.

Lemma in_halves : exists e outs ew o ep outs', history (tiny Linear true) cheap_start e outs /\ valid_config (tiny Linear true) /\ normal_fee (tiny Linear true) /\ due_of e = 0 /\
  same_side Buy (ex_pos e) = true /\
  step (tiny Linear true) e (OpMarket Buy (sumZ halves) 1) = Done (ew, Ok o) /\ run (tiny Linear true) e (slices Buy 1 halves) = Done (ep, outs') /\ all_ok outs' /\
  position_entry_price (ex_pos ep) = 3 /\ position_entry_price (ex_pos ew) = 5 /\ wallet_of ep = 998 /\ wallet_of ew = 997.
Proof.
  do 6 eexists. split; [apply play_history; vm_compute; reflexivity|]. split; [apply tiny_ok|]. split; [vm_compute; split; discriminate|].
  split; [reflexivity|]. split; [reflexivity|]. split; [vm_compute; reflexivity|]. split; [vm_compute; reflexivity|]. split; [oks|]. repeat split; reflexivity.
Qed.
Lemma reserve_avoided dbg : exists e outs ew ep outs', history (costly dbg) costly_start e outs /\ valid_config (costly dbg) /\ normal_fee (costly dbg) /\
  run (costly dbg) e (slices Buy 1 most_and_rest) = Done (ep, outs') /\ all_ok outs' /\
  step (costly dbg) e (OpMarket Buy (sumZ most_and_rest) 1) = Done (ew, Err (ERisk NotEnoughAvailableBalance)) /\ wallet_of ep < due_of ep.
Proof.
  destruct dbg; (do 5 eexists; split; [apply play_history; vm_compute; reflexivity|]; split; [apply costly_ok|]; split; [vm_compute; split; discriminate|];
  split; [vm_compute; reflexivity|]; split; [oks|]; split; [vm_compute; reflexivity | reflexivity]).
Qed.
Lemma closing_stuck : exists e outs ew o, history (tiny Linear true) held_start e outs /\ sumZ halves = Z.abs (position_quantity (ex_pos e)) /\
  step (tiny Linear true) e (OpMarket Sell (sumZ halves) 1) = Done (ew, Ok o) /\ run (tiny Linear true) e (slices Sell 1 halves) = Panic PCloseMarginDebug.
Proof.
  do 4 eexists. split; [apply play_history; vm_compute; reflexivity|]. split; [reflexivity|]. split; vm_compute; reflexivity.
Qed.
Lemma closing_left : exists e outs ep outs', history (tiny Linear false) held_start e outs /\ run (tiny Linear false) e (slices Sell 1 halves) = Done (ep, outs') /\ all_ok outs' /\
  ex_pos ep = Neutral /\ position_margin_of ep = 1.
Proof.
  do 4 eexists. split; [apply play_history; vm_compute; reflexivity|]. split; [vm_compute; reflexivity|]. split; [oks|]. split; reflexivity.
Qed.
Lemma flips_differ dbg :
  (exists e outs ew o ep outs', history (L dbg) lost_start e outs /\ step (L dbg) e (OpMarket Sell (d 9 + d 14) 1) = Done (ew, Ok o) /\
     run (L dbg) e (slices Sell 1 [d 9; d 14]) = Done (ep, outs') /\ In (Err (ERisk NotEnoughAvailableBalance)) outs') /\
  (exists e outs ew ep outs', history (L dbg) won_start e outs /\ step (L dbg) e (OpMarket Sell (d 5 + d 6) 1) = Done (ew, Err (ERisk NotEnoughAvailableBalance)) /\
     run (L dbg) e (slices Sell 1 [d 5; d 6]) = Done (ep, outs') /\ all_ok outs').
Proof.
  destruct dbg; (split; [do 6 eexists; split; [apply play_history; vm_compute; reflexivity|]; split; [vm_compute; reflexivity|]; split; [vm_compute; reflexivity | cbn [In]; tauto]
  | do 5 eexists; split; [apply play_history; vm_compute; reflexivity|]; split; [vm_compute; reflexivity|]; split; [vm_compute; reflexivity | oks]]).
Qed.
(** Reducing in parts in a debug build: 0.2 of a long of 5, and all of it. *)
Lemma reduced : exists e outs ep outs', history (L true) won_start e outs /\ valid_config (L true) /\ same_side Sell (ex_pos e) = false /\
  run (L true) e (slices Sell 1 [d 1; d 1; d 3]) = Done (ep, outs') /\ all_ok outs' /\ ex_pos ep = Neutral.
Proof.
  do 4 eexists. split; [apply play_history; vm_compute; reflexivity|]. split; [apply L_ok|]. split; [reflexivity|]. split; [vm_compute; reflexivity|]. split; [oks | reflexivity].
Qed.
