(** Cases for C99. *)
From Verif Require Import ProofBase Types Accounting Position OrderBook OrderMargin MarketUpdate Exchange Spec SpecConfig SpecMarket SpecMargin SpecPanic SpecMachine SpecCrash SpecMemory SpecFresh
  Scenario ScenarioPanic ScenarioMemory ScenarioFresh SliceFacts.

Ltac one := split; [apply play_history; vm_compute; reflexivity|].
Ltac now1 := split; [vm_compute; reflexivity|].
Lemma renumbered_case dbg : exists e x e' x' f f' u, valid_config (L dbg) /\ 0 < left_over /\ history (L dbg) (traded ++ opened) e x /\ history (started (L dbg) left_over) (OpUpdate first_quote :: opened) e' x' /\
  ex_pos e' = ex_pos e /\ ex_active e = map (order_from 2) (ex_active e') /\ ex_next_id e = ex_next_id e' + 2 /\ balances e = balances e' /\ same_market e e' /\
  run (L dbg) e (map (call_from 2) numbered) = Done (f, map (answer_from 2) u) /\ run (started (L dbg) left_over) e' numbered = Done (f', u) /\
  nth 1 u (Ok OutUnit) = Err EOrderNoLongerActive /\ nth 2 u (Ok OutUnit) = Err (EOrderIdNotFound 9) /\ balances f = balances f' /\ ex_next_id f' = 4.
Proof.
  destruct dbg; (do 6 eexists; exists (results (m <- play (started (L false) left_over) (OpUpdate first_quote :: opened) ;; run (started (L false) left_over) (fst m) numbered));
  split; [apply L_ok|]; now1; do 2 one; do 4 now1; split; [vm_compute; repeat split|]; do 5 now1; vm_compute; reflexivity).
Qed.
Lemma restart_case : exists e x e0 x0 f f0 u, valid_config (L true) /\ history (L true) traded e x /\ flat e /\ wallet_of e = left_over /\ history (started (L true) (wallet_of e)) [OpUpdate first_quote] e0 x0 /\
  quote_of first_quote = Some (ms_bid (ex_ms e), ms_ask (ex_ms e)) /\ time_of first_quote = ms_ts (ex_ms e) /\ ex_next_id e = 2 /\
  run (L true) e (map (call_from 2) (opened ++ numbered)) = Done (f, map (answer_from 2) u) /\ run (started (L true) (wallet_of e)) e0 (opened ++ numbered) = Done (f0, u) /\ balances f = balances f0.
Proof.
  do 6 eexists. exists (results (m <- play (started (L false) left_over) [OpUpdate first_quote] ;; run (started (L false) left_over) (fst m) (opened ++ numbered))).
  split; [apply L_ok|]. one. split; [vm_compute; split; reflexivity|]. now1. one. do 5 now1. vm_compute; reflexivity.
Qed.
Lemma dusty_case : exists e x e0 x0 f u, valid_config (T false) /\ history (T false) dusty e x /\ flat e /\ 0 < wallet_of e /\ history (started (T false) (wallet_of e)) [OpUpdate small_quote] e0 x0 /\
  quote_of small_quote = Some (ms_bid (ex_ms e), ms_ask (ex_ms e)) /\ time_of small_quote = ms_ts (ex_ms e) /\
  run (T false) e (map (call_from (ex_next_id e)) turned) = Panic PFlipMargin /\ run (started (T false) (wallet_of e)) e0 turned = Done (f, u).
Proof.
  do 6 eexists. split; [apply tiny_ok|]. one. split; [vm_compute; split; reflexivity|]. now1. one. do 3 now1. vm_compute; reflexivity.
Qed.
