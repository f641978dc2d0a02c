(** Cases for C91. *)
From Verif Require Import ProofBase Types OrderBook OrderMargin MarketUpdate Exchange Spec SpecConfig SpecRules SpecMarket SpecMargin SpecPanic SpecMachine SpecSplit SpecBatch SpecSlice SpecDivide
  Scenario ScenarioPanic ScenarioSlice ScenarioDivide SliceFacts.

Lemma wide_case : exists e outs ew ep, history (tiny Linear true) wide_start e outs /\ valid_config (tiny Linear true) /\ in_sync (tiny Linear true) e /\ sizes_ok (tiny Linear true) halves /\
  accepts (tiny Linear true) e (tickets Buy 5 1 [sumZ halves]) ew /\ accepts (tiny Linear true) e (tickets Buy 5 1 halves) ep /\ wallet_of ew = 997 /\ wallet_of ep = 998.
Proof.
  do 4 eexists. split; [apply play_history; vm_compute; reflexivity|]. split; [apply tiny_ok|]. split; [vm_compute; reflexivity|].
  split. { intros q [<-|[<-|[]]]; (split; [lia | unfold quantity_allowed; split; [lia|]; split; [intros (m & X & _); discriminate X|]; split; [intros (m & X & _); discriminate X|]; exists 3; reflexivity]). }
  split; [eexists; split; [vm_compute; reflexivity | oks]|]. split; [eexists; split; [vm_compute; reflexivity | oks]|]. split; reflexivity.
Qed.
Lemma dust_case dbg : exists e outs ew ep, history (tiny Linear dbg) wide_start e outs /\ in_sync (tiny Linear dbg) e /\
  run (tiny Linear dbg) e (map sent (tickets Buy 1 1 [sumZ dust])) = Done (ew, [Err (ERisk NotEnoughAvailableBalance)]) /\ accepts (tiny Linear dbg) e (tickets Buy 1 1 dust) ep.
Proof.
  destruct dbg; (do 4 eexists; split; [apply play_history; vm_compute; reflexivity|]; split; [vm_compute; reflexivity|]; split; [vm_compute; reflexivity|];
  eexists; split; [vm_compute; reflexivity | oks]).
Qed.
Lemma filled_case dbg : exists e outs ew ep ew' ow ep' op, history (L dbg) pair_start e outs /\ valid_config (L dbg) /\ in_sync (L dbg) e /\
  accepts (L dbg) e (tickets Buy (d 98) 1 [sumZ two_ones]) ew /\ accepts (L dbg) e (tickets Buy (d 98) 1 two_ones) ep /\
  run (L dbg) ew (trade_ops one_seller) = Done (ew', ow) /\ all_accepted ow /\ run (L dbg) ep (trade_ops one_seller) = Done (ep', op) /\ all_accepted op /\
  position_quantity (ex_pos ew') = 15000 /\ position_quantity (ex_pos ep') = d 2.
Proof.
  destruct dbg; (do 8 eexists; split; [apply play_history; vm_compute; reflexivity|]; split; [apply L_ok|]; split; [vm_compute; reflexivity|];
  split; [eexists; split; [vm_compute; reflexivity | oks]|]; split; [eexists; split; [vm_compute; reflexivity | oks]|];
  split; [vm_compute; reflexivity|]; split; [oks|]; split; [vm_compute; reflexivity|]; split; [oks|]; split; reflexivity).
Qed.
