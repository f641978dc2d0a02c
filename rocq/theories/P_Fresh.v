(** Property C99: order ids carry no meaning; an account without position and orders is as good as new. *)
From Verif Require Import Base Types Position OrderBook OrderMargin MarketUpdate Exchange Spec SpecConfig SpecMarket SpecPanic SpecMachine SpecCrash SpecMemory SpecFresh Scenario ScenarioPanic
  ScenarioMemory ScenarioFresh FreshProof FreshFacts.

(** C99: if two accounts agree up to fees paid and all order ids of the one are larger by [n], then calls that name the ids larger by [n] have the answers with ids larger by [n],
    panics included, and the accounts still agree in this way. *)
Theorem C99_ids : forall c x n e e' ops, valid_config c -> 0 < x -> reachable c e -> reachable (started c x) e' ->
  ex_pos e' = ex_pos e -> ex_active e = map (order_from n) (ex_active e') -> ex_next_id e = ex_next_id e' + n -> balances e = balances e' -> same_market e e' ->
  seen (run c e (map (call_from n) ops)) = after (fees_paid e - fees_paid e') n (seen (run (started c x) e' ops)).
Proof. exact fresh_alike. Qed.
Print Assumptions C99_ids.

Example C99_ids_case : forall dbg, exists e x e' x' f f' u, valid_config (L dbg) /\ 0 < left_over /\ history (L dbg) (traded ++ opened) e x /\ history (started (L dbg) left_over) (OpUpdate first_quote :: opened) e' x' /\
  ex_pos e' = ex_pos e /\ ex_active e = map (order_from 2) (ex_active e') /\ ex_next_id e = ex_next_id e' + 2 /\ balances e = balances e' /\ same_market e e' /\
  run (L dbg) e (map (call_from 2) numbered) = Done (f, map (answer_from 2) u) /\ run (started (L dbg) left_over) e' numbered = Done (f', u) /\
  nth 1 u (Ok OutUnit) = Err EOrderNoLongerActive /\ nth 2 u (Ok OutUnit) = Err (EOrderIdNotFound 9) /\ balances f = balances f' /\ ex_next_id f' = 4.
Proof. exact renumbered_case. Qed.

(** C99: in debug builds an account without position and orders goes on like a new exchange that starts with its wallet balance and is told its quote. *)
Theorem C99_restart : forall c e ru e0 x ops, valid_config c -> c_dbg c = true -> reachable c e -> flat e -> 0 < wallet_of e ->
  history (started c (wallet_of e)) [OpUpdate ru] e0 x -> quote_of ru = Some (ms_bid (ex_ms e), ms_ask (ex_ms e)) -> time_of ru = ms_ts (ex_ms e) ->
  seen (run c e (map (call_from (ex_next_id e)) ops)) = after (fees_paid e) (ex_next_id e) (seen (run (started c (wallet_of e)) e0 ops)).
Proof. exact fresh_restart. Qed.
Print Assumptions C99_restart.

Example C99_restart_case : exists e x e0 x0 f f0 u, valid_config (L true) /\ history (L true) traded e x /\ flat e /\ wallet_of e = left_over /\ history (started (L true) (wallet_of e)) [OpUpdate first_quote] e0 x0 /\
  quote_of first_quote = Some (ms_bid (ex_ms e), ms_ask (ex_ms e)) /\ time_of first_quote = ms_ts (ex_ms e) /\ ex_next_id e = 2 /\
  run (L true) e (map (call_from 2) (opened ++ numbered)) = Done (f, map (answer_from 2) u) /\ run (started (L true) (wallet_of e)) e0 (opened ++ numbered) = Done (f0, u) /\ balances f = balances f0.
Proof. exact restart_case. Qed.

(** C99, refuted in release builds: the account goes on with margin left behind by rounding, and panics where the new exchange does not. *)
Theorem C99_restart_refuted : exists e x e0 x0 f u, valid_config (T false) /\ history (T false) dusty e x /\ flat e /\ 0 < wallet_of e /\ history (started (T false) (wallet_of e)) [OpUpdate small_quote] e0 x0 /\
  quote_of small_quote = Some (ms_bid (ex_ms e), ms_ask (ex_ms e)) /\ time_of small_quote = ms_ts (ex_ms e) /\
  run (T false) e (map (call_from (ex_next_id e)) turned) = Panic PFlipMargin /\ run (started (T false) (wallet_of e)) e0 turned = Done (f, u).
Proof. exact dusty_case. Qed.
Print Assumptions C99_restart_refuted.
