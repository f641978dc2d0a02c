(** Cases for C88. *)
From Coq Require Import Permutation.
From Verif Require Import ProofBase Types OrderBook OrderMargin MarketUpdate Exchange Spec SpecConfig SpecMargin SpecPanic SpecMachine SpecBatch Scenario ScenarioPanic ScenarioBatch.

Lemma batch_swapped : Permutation batch batch'.
Proof.
  unfold batch, batch'. transitivity ([offer (d 104) (d 6) 5; bid_for (d 97) (d 5) 6] ++ [bid_for (d 99) (d 2) 3; offer (d 103) (d 1) 4]); [|reflexivity].
  rewrite Permutation_app_comm. reflexivity.
Qed.
Lemma tie_order dbg : exists e outs e1 outs1 e2 outs2, history (tiny Linear dbg) tie_start e outs /\ in_sync (tiny Linear dbg) e /\ Permutation tie_batch tie_batch' /\
  run (tiny Linear dbg) e (map sent tie_batch) = Done (e1, outs1) /\ (forall r, In r outs1 -> exists o, r = Ok o) /\
  run (tiny Linear dbg) e (map sent tie_batch') = Done (e2, outs2) /\ In (Err (ERisk NotEnoughAvailableBalance)) outs2.
Proof.
  destruct dbg; (do 6 eexists; split; [apply play_history; vm_compute; reflexivity|]; split; [vm_compute; reflexivity|]; split; [apply perm_skip, perm_swap|];
  split; [vm_compute; reflexivity|]; split; [intros r H; repeat (destruct H as [<-|H]; [eexists; reflexivity|]); destruct H|]; split; [vm_compute; reflexivity|]; cbn [In]; tauto).
Qed.
Lemma tie_undone dbg : exists e outs, history (tiny Linear dbg) (tie_start ++ map sent undo_batch) e outs /\ in_sync (tiny Linear dbg) e /\
  (forall r, In r (skipn 2 outs) -> exists o, r = Ok o) /\ run (tiny Linear dbg) e (map dropped [1; 2; 3]) = Panic PCancelMarginGrows.
Proof.
  destruct dbg; (do 2 eexists; split; [apply play_history; vm_compute; reflexivity|]; split; [vm_compute; reflexivity|];
  split; [intros r H; cbn [skipn] in H; repeat (destruct H as [<-|H]; [eexists; reflexivity|]); destruct H|]; vm_compute; reflexivity).
Qed.
