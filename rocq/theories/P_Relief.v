(** Property C93: cancelling an order makes room. *)
From Verif Require Import Base Types Position OrderBook OrderMargin MarketUpdate Exchange Spec SpecConfig SpecMarket SpecMargin SpecPanic Scenario ScenarioPanic ScenarioRelief ReliefProof ReliefFacts.

(** C93: a market order that is accepted is also accepted, with the same fill, if any resting order is cancelled first; money, position and position margin
    come out the same, the rest of the book stays, and the wallet is no smaller. *)
Theorem C93_market : forall c e b e1 x sd q uid e2 o, valid_config c -> reachable c e -> step c e (OpCancel b) = Done (e1, Ok (OutLimit x)) ->
  step c e (OpMarket sd q uid) = Done (e2, Ok o) ->
  exists e3, step c e1 (OpMarket sd q uid) = Done (e3, Ok o) /\ statement_of e3 = statement_of e2 /\ position_margin_of e3 = position_margin_of e2 /\
    ex_active e3 = ex_active e1 /\ wallet_of e2 <= wallet_of e3.
Proof. exact relief_market. Qed.
Print Assumptions C93_market.

Example C93_market_case : forall dbg, exists e outs e1 x e2 o e3, history (L dbg) resting e outs /\ valid_config (L dbg) /\ step (L dbg) e (OpCancel (ByOrderId 1)) = Done (e1, Ok (OutLimit x)) /\
  step (L dbg) e (OpMarket Buy (d 1) 9) = Done (e2, Ok o) /\ step (L dbg) e1 (OpMarket Buy (d 1) 9) = Done (e3, Ok o) /\
  position_quantity (ex_pos e3) = d 2 /\ length (ex_active e3) = 1%nat /\ wallet_of e2 < wallet_of e3.
Proof. exact relief_market_case. Qed.

(** C93: so is a limit order, if there is no position, or no two orders at one price, or nothing to round. *)
Theorem C93_limit : forall c e b e1 x sd p q uid e2 o, valid_config c -> reachable c e -> step c e (OpCancel b) = Done (e1, Ok (OutLimit x)) ->
  step c e (OpLimit sd p q uid) = Done (e2, Ok (OutLimit o)) ->
  (ex_pos e = Neutral \/ no_ties (ex_active e2) \/ exists g, exact_book (c_kind c) (c_scale c) g (position_quantity (ex_pos e)) (ex_active e2)) ->
  exists e3, step c e1 (OpLimit sd p q uid) = Done (e3, Ok (OutLimit o)) /\ ex_active e3 = ex_active e1 ++ [o] /\ statement_of e3 = statement_of e2 /\
    position_margin_of e3 = position_margin_of e2 /\ wallet_of e2 <= wallet_of e3.
Proof. exact relief_limit. Qed.
Print Assumptions C93_limit.

Example C93_limit_case : forall dbg, exists e outs e1 x e2 o e3, history (L dbg) resting e outs /\ valid_config (L dbg) /\ step (L dbg) e (OpCancel (ByOrderId 1)) = Done (e1, Ok (OutLimit x)) /\
  step (L dbg) e one_more = Done (e2, Ok (OutLimit o)) /\ no_ties (ex_active e2) /\ step (L dbg) e1 one_more = Done (e3, Ok (OutLimit o)) /\
  length (ex_active e2) = 3%nat /\ length (ex_active e3) = 2%nat /\ wallet_of e2 < wallet_of e3.
Proof. exact relief_limit_case. Qed.

(** C93: without the condition a limit order can be refused because another order was cancelled, although the wallet has grown. *)
Theorem C93_limit_refuted : forall dbg, exists e outs e1 x e2 o e3, history (tiny Linear dbg) tied e outs /\ valid_config (tiny Linear dbg) /\
  step (tiny Linear dbg) e (OpCancel (ByOrderId 1)) = Done (e1, Ok (OutLimit x)) /\
  step (tiny Linear dbg) e the_rest = Done (e2, Ok (OutLimit o)) /\ step (tiny Linear dbg) e1 the_rest = Done (e3, Err (ERisk NotEnoughAvailableBalance)) /\
  wallet_of e < wallet_of e1 /\ order_margin_of e1 < order_margin_of e.
Proof. exact relief_limit_tie. Qed.
Print Assumptions C93_limit_refuted.
