(** Cases for C98. *)
From Verif Require Import ProofBase Types Accounting Position OrderBook OrderMargin MarketUpdate Exchange Spec SpecConfig SpecMarket SpecMargin SpecPanic SpecMachine SpecCrash SpecMemory
  Scenario ScenarioPanic ScenarioMemory SliceFacts MemoryProof.

Ltac one := split; [apply play_history; vm_compute; reflexivity|].
Ltac now1 := split; [vm_compute; reflexivity|].
Lemma alike_case dbg : exists e x e' x' f y f', valid_config (L dbg) /\ 0 < left_over /\ history (L dbg) (traded ++ opened) e x /\ history (started (L dbg) left_over) (idled ++ opened) e' x' /\
  ex_pos e = ex_pos e' /\ ex_active e = ex_active e' /\ balances e = balances e' /\ same_moment e e' /\ fees_paid e' - fees_paid e = - 1206 /\
  run (L dbg) e later = Done (f, y) /\ run (started (L dbg) left_over) e' later = Done (f', y) /\ balances f = balances f' /\ fees_paid f = 3714 /\ fees_paid f' = 2508.
Proof.
  destruct dbg; (do 7 eexists; split; [apply L_ok|]; now1; do 2 one; do 3 now1; split; [vm_compute; repeat split|]; do 5 now1; vm_compute; reflexivity).
Qed.
Lemma flat_case : exists e x e' x' f y f', valid_config (L true) /\ 0 < left_over /\ history (L true) traded e x /\ history (started (L true) left_over) idled e' x' /\
  flat e /\ flat e' /\ wallet_of e = wallet_of e' /\ same_moment e e' /\ fees_paid e = 1206 /\ fees_paid e' = 0 /\
  run (L true) e (opened ++ later) = Done (f, y) /\ run (started (L true) left_over) e' (opened ++ later) = Done (f', y) /\ balances f = balances f'.
Proof.
  do 7 eexists. split; [apply L_ok|]. now1. do 2 one. do 2 (split; [vm_compute; split; reflexivity|]). now1. split; [vm_compute; repeat split|]. do 4 now1. vm_compute; reflexivity.
Qed.
Lemma dust_case : exists e x e' x' f y, valid_config (T false) /\ history (T false) dusty e x /\ history (T false) waited e' x' /\ flat e /\ flat e' /\ wallet_of e = wallet_of e' /\ same_moment e e' /\
  fees_paid e = fees_paid e' /\ run (T false) e turned = Panic PFlipMargin /\ run (T false) e' turned = Done (f, y) /\ position_quantity (ex_pos f) = -3.
Proof.
  do 6 eexists. split; [apply tiny_ok|]. do 2 one. do 2 (split; [vm_compute; split; reflexivity|]). now1. split; [vm_compute; repeat split|]. do 3 now1. vm_compute; reflexivity.
Qed.
