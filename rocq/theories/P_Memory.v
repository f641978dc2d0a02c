(** Property C98: what an account remembers of its past. *)
From Verif Require Import Base Types Position OrderBook OrderMargin MarketUpdate Exchange Spec SpecConfig SpecMarket SpecPanic SpecMachine SpecCrash SpecMemory Scenario ScenarioPanic ScenarioMemory MemoryProof MemoryFacts.

(** C98: two accounts, even with different starting balances, that now agree in position, resting orders, balances, quote, time and next order id answer every further sequence of calls
    alike and stay alike; what they had paid in fees before stays their only difference. *)
Theorem C98_alike : forall c x e e' ops, valid_config c -> 0 < x -> reachable c e -> reachable (started c x) e' ->
  ex_pos e = ex_pos e' -> ex_active e = ex_active e' -> balances e = balances e' -> same_moment e e' ->
  seen (run (started c x) e' ops) = so_far (fees_paid e' - fees_paid e) (seen (run c e ops)).
Proof. exact memory_alike. Qed.
Print Assumptions C98_alike.

Example C98_alike_case : forall dbg, exists e x e' x' f y f', valid_config (L dbg) /\ 0 < left_over /\ history (L dbg) (traded ++ opened) e x /\ history (started (L dbg) left_over) (idled ++ opened) e' x' /\
  ex_pos e = ex_pos e' /\ ex_active e = ex_active e' /\ balances e = balances e' /\ same_moment e e' /\ fees_paid e' - fees_paid e = - 1206 /\
  run (L dbg) e later = Done (f, y) /\ run (started (L dbg) left_over) e' later = Done (f', y) /\ balances f = balances f' /\ fees_paid f = 3714 /\ fees_paid f' = 2508.
Proof. exact alike_case. Qed.

(** C98: in debug builds an account without position and orders remembers nothing but its wallet balance. *)
Theorem C98_flat : forall c x e e' ops, valid_config c -> 0 < x -> c_dbg c = true -> reachable c e -> reachable (started c x) e' ->
  flat e -> flat e' -> wallet_of e = wallet_of e' -> same_moment e e' ->
  seen (run (started c x) e' ops) = so_far (fees_paid e' - fees_paid e) (seen (run c e ops)).
Proof. exact memory_flat. Qed.
Print Assumptions C98_flat.

Example C98_flat_case : exists e x e' x' f y f', valid_config (L true) /\ 0 < left_over /\ history (L true) traded e x /\ history (started (L true) left_over) idled e' x' /\
  flat e /\ flat e' /\ wallet_of e = wallet_of e' /\ same_moment e e' /\ fees_paid e = 1206 /\ fees_paid e' = 0 /\
  run (L true) e (opened ++ later) = Done (f, y) /\ run (started (L true) left_over) e' (opened ++ later) = Done (f', y) /\ balances f = balances f'.
Proof. exact flat_case. Qed.

(** C98, refuted in release builds: of two accounts without position and orders, with the same wallet balance and fees, one panics when a long is turned into a short and the other does not,
    because margin was left behind by rounding when an earlier position was closed. *)
Theorem C98_flat_refuted : exists e x e' x' f y, valid_config (T false) /\ history (T false) dusty e x /\ history (T false) waited e' x' /\ flat e /\ flat e' /\ wallet_of e = wallet_of e' /\ same_moment e e' /\
  fees_paid e = fees_paid e' /\ run (T false) e turned = Panic PFlipMargin /\ run (T false) e' turned = Done (f, y) /\ position_quantity (ex_pos f) = -3.
Proof. exact dust_case. Qed.
Print Assumptions C98_flat_refuted.
