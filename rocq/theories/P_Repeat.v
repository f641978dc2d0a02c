(** Property C107: the same amendment twice. *)
From Coq Require Import Permutation.
From Verif Require Import Base Types Position OrderBook OrderMargin MarketUpdate Exchange Spec SpecConfig SpecMarket SpecEntry Scenario ScenarioPanic ScenarioRenew RepeatProof RepeatFacts.

(** C107: the first amendment subtracts what the order had filled from the quantity asked for, the same amendment of the new order does not: the quantity grows by the fills
    of the first order. So repeating an amendment leaves the quantity as it is if and only if the order had no fills. *)
Theorem C107_twice : forall c e i sd p q uid e1 n e2 n' o, 0 <= c_max c <= 10000 -> reachable c e -> 0 < p -> 0 < q -> In o (ex_active e) -> lo_id o = i ->
  step c e (OpAmend i sd p q uid) = Done (e1, Ok (OutLimit n)) -> step c e1 (OpAmend (lo_id n) sd p q uid) = Done (e2, Ok (OutLimit n')) ->
  lo_rem n = q - lo_filled_qty o /\ lo_rem n' = q /\ lo_filled_qty n' = 0 /\ lo_side n' = lo_side n /\ lo_price n' = lo_price n /\ In n' (ex_active e2) /\ Permutation (ex_active e1 ++ [n']) (n :: ex_active e2).
Proof. exact amend_twice. Qed.
Print Assumptions C107_twice.

Example C107_twice_case : forall dbg, exists e outs e1 n e2 n', valid_config (L dbg) /\ history (L dbg) half_filled e outs /\
  step (L dbg) e (OpAmend 0 Buy (d 98) (d 4) 7) = Done (e1, Ok (OutLimit n)) /\ step (L dbg) e1 (OpAmend (lo_id n) Buy (d 98) (d 4) 7) = Done (e2, Ok (OutLimit n')) /\
  position_quantity (ex_pos e) = d 1 /\ lo_rem n = d 3 /\ lo_rem n' = d 4.
Proof. exact repeat_case. Qed.

(** C107, refuted: an order for two contracts, amended twice to two contracts, buys three. *)
Theorem C107_twice_refuted : forall dbg, exists e outs o e1 n e2 n' e3 r, valid_config (L dbg) /\ history (L dbg) half_filled e outs /\ In o (ex_active e) /\ lo_id o = 0 /\ lo_rem o + lo_filled_qty o = d 2 /\
  step (L dbg) e (OpAmend 0 Buy (d 99) (d 2) 1) = Done (e1, Ok (OutLimit n)) /\ step (L dbg) e1 (OpAmend (lo_id n) Buy (d 99) (d 2) 1) = Done (e2, Ok (OutLimit n')) /\
  lo_rem n = lo_rem o /\ lo_rem n' = d 2 /\ step (L dbg) e2 (OpUpdate (RCandle sinking)) = Done (e3, Ok (OutUpdates [r])) /\ position_quantity (ex_pos e3) = d 3.
Proof. exact repeat_grows. Qed.
Print Assumptions C107_twice_refuted.
