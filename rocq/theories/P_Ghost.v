(** Property C92: a limit order that is never filled. *)
From Coq Require Import Permutation.
From Verif Require Import Base Types Position OrderBook OrderMargin MarketUpdate Exchange Spec SpecConfig SpecMarket SpecGhost Scenario ScenarioPanic ScenarioGhost GhostProof GhostFacts.

(** C92: a resting order that no market data reaches changes no quantity.  With it and without it, if the same calls are accepted, the position is the same,
    and so are all other orders, except that later ids are one higher. *)
Theorem C92_quantities : forall c e sd p q uid e1 o ops f1 f2 o1 o2, valid_config c -> reachable c e -> step c e (OpLimit sd p q uid) = Done (e1, Ok o) ->
  (forall x, In x ops -> leaves_alone (ex_next_id e) x /\ misses (ghost e sd p q uid) x) ->
  run c e1 ops = Done (f1, o1) -> run c e (map (earlier_op (ex_next_id e)) ops) = Done (f2, o2) -> map accepted o1 = map accepted o2 ->
  position_quantity (ex_pos f1) = position_quantity (ex_pos f2) /\
  exists l, Permutation (ex_active f1) (ghost e sd p q uid :: l) /\ Permutation (ex_active f2) (map (earlier_order (ex_next_id e)) l).
Proof. exact ghost_quantities. Qed.
Print Assumptions C92_quantities.

Example C92_quantities_case : match play (L false) (haunted ++ unreached :: together), play (L false) (haunted ++ map (earlier_op 4) together) with
  | Done (f1, _), Done (f2, _) => position_quantity (ex_pos f1) = d 1 /\ position_quantity (ex_pos f2) = d 1 /\ map lo_id (ex_active f1) = [4] /\ ex_active f2 = []
  | _, _ => False end.
Proof. vm_compute. repeat split. Qed.

(** C92: if market data never fills more than one order at a time, money, fees, entry price and position margin are the same as well, and the
    wallet together with the money reserved for orders. *)
Theorem C92_same : forall c e sd p q uid e1 o ops f1 f2 o1 o2, valid_config c -> reachable c e -> step c e (OpLimit sd p q uid) = Done (e1, Ok o) ->
  (forall x, In x ops -> leaves_alone (ex_next_id e) x /\ misses (ghost e sd p q uid) x) -> one_by_one c e1 ops ->
  run c e1 ops = Done (f1, o1) -> run c e (map (earlier_op (ex_next_id e)) ops) = Done (f2, o2) -> map accepted o1 = map accepted o2 ->
  statement_of f1 = statement_of f2 /\ position_margin_of f1 = position_margin_of f2 /\ wallet_of f1 + order_margin_of f1 = wallet_of f2 + order_margin_of f2 /\
  exists l, Permutation (ex_active f1) (ghost e sd p q uid :: l) /\ Permutation (ex_active f2) (map (earlier_order (ex_next_id e)) l).
Proof. exact ghost_same. Qed.
Print Assumptions C92_same.

Example C92_same_case : forall dbg, exists e outs e1 o f1 o1 f2 o2, history (L dbg) haunted e outs /\ valid_config (L dbg) /\ step (L dbg) e unreached = Done (e1, Ok o) /\
  (forall x, In x in_turn -> leaves_alone (ex_next_id e) x /\ misses (ghost e Buy (d 80) (d 1) 5) x) /\ one_by_one (L dbg) e1 in_turn /\
  run (L dbg) e1 in_turn = Done (f1, o1) /\ run (L dbg) e (map (earlier_op (ex_next_id e)) in_turn) = Done (f2, o2) /\
  map accepted o1 = [true; true; true; true; true; true; true] /\ map accepted o2 = [true; true; true; true; true; true; true] /\
  length (ex_active f1) = 3%nat /\ length (ex_active f2) = 2%nat /\ position_quantity (ex_pos f1) = d 1 /\ wallet_of f1 = wallet_of f2.
Proof. exact turn_case. Qed.

(** C92: when one trade fills two other orders, the order that is never filled can decide which comes first, and with it the profit. *)
Theorem C92_profit_refuted : exists e outs e1 o f1 o1 f2 o2, history (L false) haunted e outs /\ valid_config (L false) /\ step (L false) e unreached = Done (e1, Ok o) /\
  (forall x, In x together -> leaves_alone (ex_next_id e) x /\ misses (ghost e Buy (d 80) (d 1) 5) x) /\
  run (L false) e1 together = Done (f1, o1) /\ run (L false) e (map (earlier_op (ex_next_id e)) together) = Done (f2, o2) /\
  map accepted o1 = [true; true] /\ map accepted o2 = [true; true] /\
  position_quantity (ex_pos f1) = d 1 /\ position_quantity (ex_pos f2) = d 1 /\ position_entry_price (ex_pos f1) = d 97 /\ position_entry_price (ex_pos f2) = d 98 /\ wealth_of f1 < wealth_of f2.
Proof. exact together_case. Qed.
Print Assumptions C92_profit_refuted.

(** C92: in a debug build the same calls panic without the order and return with it. *)
Theorem C92_panic_refuted : exists e outs e1 o f1 o1, history (L true) haunted e outs /\ step (L true) e unreached = Done (e1, Ok o) /\
  (forall x, In x together -> leaves_alone (ex_next_id e) x /\ misses (ghost e Buy (d 80) (d 1) 5) x) /\
  run (L true) e1 together = Done (f1, o1) /\ map accepted o1 = [true; true] /\ run (L true) e (map (earlier_op (ex_next_id e)) together) = Panic PFillMarginGrowsDebug.
Proof. exact saved_case. Qed.
Print Assumptions C92_panic_refuted.
