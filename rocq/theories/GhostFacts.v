(** Cases for C92. *)
From Verif Require Import ProofBase Types Position OrderBook OrderMargin MarketUpdate Exchange Spec SpecConfig SpecMarket SpecGhost Scenario ScenarioPanic ScenarioGhost SliceFacts.

Ltac alone := intros x H; repeat (destruct H as [<-|H]; [split; [cbn; first [exact I | discriminate] | vm_compute; first [exact I | reflexivity]]|]); destruct H.
Lemma turn_case dbg : exists e outs e1 o f1 o1 f2 o2, history (L dbg) haunted e outs /\ valid_config (L dbg) /\ step (L dbg) e unreached = Done (e1, Ok o) /\
  (forall x, In x in_turn -> leaves_alone (ex_next_id e) x /\ misses (ghost e Buy (d 80) (d 1) 5) x) /\ one_by_one (L dbg) e1 in_turn /\
  run (L dbg) e1 in_turn = Done (f1, o1) /\ run (L dbg) e (map (earlier_op (ex_next_id e)) in_turn) = Done (f2, o2) /\
  map accepted o1 = [true; true; true; true; true; true; true] /\ map accepted o2 = [true; true; true; true; true; true; true] /\
  length (ex_active f1) = 3%nat /\ length (ex_active f2) = 2%nat /\ position_quantity (ex_pos f1) = d 1 /\ wallet_of f1 = wallet_of f2.
Proof.
  destruct dbg; (do 8 eexists; split; [apply play_history; vm_compute; reflexivity|]; split; [apply L_ok|]; split; [vm_compute; reflexivity|]; split; [alone|];
  split; [vm_compute; intuition auto with arith|]; split; [vm_compute; reflexivity|]; split; [vm_compute; reflexivity|]; vm_compute; repeat split).
Qed.
Lemma together_case : exists e outs e1 o f1 o1 f2 o2, history (L false) haunted e outs /\ valid_config (L false) /\ step (L false) e unreached = Done (e1, Ok o) /\
  (forall x, In x together -> leaves_alone (ex_next_id e) x /\ misses (ghost e Buy (d 80) (d 1) 5) x) /\
  run (L false) e1 together = Done (f1, o1) /\ run (L false) e (map (earlier_op (ex_next_id e)) together) = Done (f2, o2) /\
  map accepted o1 = [true; true] /\ map accepted o2 = [true; true] /\
  position_quantity (ex_pos f1) = d 1 /\ position_quantity (ex_pos f2) = d 1 /\ position_entry_price (ex_pos f1) = d 97 /\ position_entry_price (ex_pos f2) = d 98 /\ wealth_of f1 < wealth_of f2.
Proof.
  do 8 eexists; split; [apply play_history; vm_compute; reflexivity|]; split; [apply L_ok|]; split; [vm_compute; reflexivity|]; split; [alone|];
  split; [vm_compute; reflexivity|]; split; [vm_compute; reflexivity|]; vm_compute; repeat split.
Qed.
Lemma saved_case : exists e outs e1 o f1 o1, history (L true) haunted e outs /\ step (L true) e unreached = Done (e1, Ok o) /\
  (forall x, In x together -> leaves_alone (ex_next_id e) x /\ misses (ghost e Buy (d 80) (d 1) 5) x) /\
  run (L true) e1 together = Done (f1, o1) /\ map accepted o1 = [true; true] /\ run (L true) e (map (earlier_op (ex_next_id e)) together) = Panic PFillMarginGrowsDebug.
Proof.
  do 6 eexists; split; [apply play_history; vm_compute; reflexivity|]; split; [vm_compute; reflexivity|]; split; [alone|];
  split; [vm_compute; reflexivity|]; split; vm_compute; reflexivity.
Qed.
