(** Property C104: cancelling before or after a market order. *)
From Verif Require Import Base Types Position OrderBook OrderMargin MarketUpdate Exchange Spec SpecConfig SpecMarket SpecMargin SpecPanic Scenario ScenarioPanic ScenarioSooner SoonerProof SoonerFacts.

(** C104: an order can be cancelled before or after a market order: the answers, the fill, the money, the position, its margin and the orders that are left are the same,
    and so is the sum of wallet and order margin. *)
Theorem C104_same : forall c e b e1 x sd q uid e2 o e3 o' e4 r, valid_config c -> reachable c e ->
  step c e (OpCancel b) = Done (e1, Ok (OutLimit x)) -> step c e1 (OpMarket sd q uid) = Done (e2, Ok o) ->
  step c e (OpMarket sd q uid) = Done (e3, Ok o') -> step c e3 (OpCancel b) = Done (e4, r) ->
  r = Ok (OutLimit x) /\ o' = o /\ statement_of e4 = statement_of e2 /\ position_margin_of e4 = position_margin_of e2 /\ ex_active e4 = ex_active e2 /\
  ex_next_id e4 = ex_next_id e2 /\ wallet_of e4 + order_margin_of e4 = wallet_of e2 + order_margin_of e2.
Proof. exact sooner_same. Qed.
Print Assumptions C104_same.

Example C104_same_case : forall dbg, exists e outs e1 x e2 o e3 e4, valid_config (L dbg) /\ history (L dbg) lopsided e outs /\
  step (L dbg) e (OpCancel (ByUserOrderId 2)) = Done (e1, Ok (OutLimit x)) /\ step (L dbg) e1 (OpMarket Buy (d 1) 7) = Done (e2, Ok o) /\
  step (L dbg) e (OpMarket Buy (d 1) 7) = Done (e3, Ok o) /\ step (L dbg) e3 (OpCancel (ByUserOrderId 2)) = Done (e4, Ok (OutLimit x)) /\
  position_quantity (ex_pos e2) = d 1 /\ length (ex_active e2) = 1%nat /\ wallet_of e4 = wallet_of e2.
Proof. exact sooner_case. Qed.

(** C104, refuted for the split between wallet and order margin: after the market order the margin is not computed anew until the next cancel. *)
Theorem C104_margin_refuted : forall dbg, exists e outs e1 x e2 o e3 e4, valid_config (L dbg) /\ history (L dbg) lopsided e outs /\
  step (L dbg) e (OpCancel (ByUserOrderId 1)) = Done (e1, Ok (OutLimit x)) /\ step (L dbg) e1 (OpMarket Buy (d 1) 7) = Done (e2, Ok o) /\
  step (L dbg) e (OpMarket Buy (d 1) 7) = Done (e3, Ok o) /\ step (L dbg) e3 (OpCancel (ByUserOrderId 1)) = Done (e4, Ok (OutLimit x)) /\
  order_margin_of e4 = 0 /\ order_margin_of e2 = d 110 /\ wallet_of e2 < wallet_of e4.
Proof. exact sooner_margin. Qed.
Print Assumptions C104_margin_refuted.

(** C104, refuted: an order that can be cancelled before the market order cannot always be cancelled after it. *)
Theorem C104_after_refuted : forall dbg, exists e outs e1 x e2 o e3, valid_config (L dbg) /\ history (L dbg) for_sale e outs /\
  step (L dbg) e (OpCancel (ByUserOrderId 2)) = Done (e1, Ok (OutLimit x)) /\ step (L dbg) e1 (OpMarket Sell (d 1) 7) = Done (e2, Ok o) /\
  step (L dbg) e (OpMarket Sell (d 1) 7) = Done (e3, Ok o) /\ step (L dbg) e3 (OpCancel (ByUserOrderId 2)) = Panic PCancelMargin.
Proof. exact sooner_panic. Qed.
Print Assumptions C104_after_refuted.
