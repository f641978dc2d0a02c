(** Property C106: a limit order before or after a market order. *)
From Verif Require Import Base Types Position OrderBook OrderMargin MarketUpdate Exchange Spec SpecConfig SpecMarket SpecEntry SpecMargin SpecPanic Scenario ScenarioPanic EitherProof EitherFacts.

(** C106: a limit order and a market order can be sent in either order if both are accepted both times: the fill, the money, the position, its margin, the book but for the
    order ids, and the sum of wallet and order margin are the same. *)
Theorem C106_same : forall c e sd p q uid e1 x sd' q' uid' e2 o e3 o' e4 x', valid_config c -> reachable c e ->
  step c e (OpLimit sd p q uid) = Done (e1, Ok x) -> step c e1 (OpMarket sd' q' uid') = Done (e2, Ok (OutMarket o)) ->
  step c e (OpMarket sd' q' uid') = Done (e3, Ok (OutMarket o')) -> step c e3 (OpLimit sd p q uid) = Done (e4, Ok x') ->
  ex_active e2 = ex_active e ++ [fresh_order e sd p q uid] /\ ex_active e4 = ex_active e ++ [fresh_order e3 sd p q uid] /\ ex_next_id e3 = ex_next_id e + 1 /\
  fm_avg o' = fm_avg o /\ fm_filled o' = fm_filled o /\ fm_ts o' = fm_ts o /\ fm_id o = fm_id o' + 1 /\
  statement_of e4 = statement_of e2 /\ position_margin_of e4 = position_margin_of e2 /\ ex_next_id e4 = ex_next_id e2 /\ wallet_of e4 + order_margin_of e4 = wallet_of e2 + order_margin_of e2.
Proof. exact either_same. Qed.
Print Assumptions C106_same.

Example C106_same_case : forall dbg, exists e outs e1 x e2 o e3 o' e4 x', valid_config (L dbg) /\ history (L dbg) [quote 100 101 1] e outs /\
  step (L dbg) e (OpLimit Buy (d 99) (d 2) 1) = Done (e1, Ok x) /\ step (L dbg) e1 (OpMarket Buy (d 1) 2) = Done (e2, Ok (OutMarket o)) /\
  step (L dbg) e (OpMarket Buy (d 1) 2) = Done (e3, Ok (OutMarket o')) /\ step (L dbg) e3 (OpLimit Buy (d 99) (d 2) 1) = Done (e4, Ok x') /\
  fm_id o = 1 /\ fm_id o' = 0 /\ position_quantity (ex_pos e4) = d 1 /\ length (ex_active e4) = 1%nat /\ wallet_of e4 = wallet_of e2.
Proof. exact either_case. Qed.

(** C106, refuted for the split between wallet and order margin. *)
Theorem C106_margin_refuted : forall dbg, exists e outs e1 x e2 o e3 o' e4 x', valid_config (L dbg) /\ history (L dbg) [quote 100 101 1] e outs /\
  step (L dbg) e (OpLimit Sell (d 110) (d 1) 1) = Done (e1, Ok x) /\ step (L dbg) e1 (OpMarket Buy (d 1) 2) = Done (e2, Ok (OutMarket o)) /\
  step (L dbg) e (OpMarket Buy (d 1) 2) = Done (e3, Ok (OutMarket o')) /\ step (L dbg) e3 (OpLimit Sell (d 110) (d 1) 1) = Done (e4, Ok x') /\
  order_margin_of e2 = d 110 /\ order_margin_of e4 = 0.
Proof. exact either_margin. Qed.
Print Assumptions C106_margin_refuted.

(** C106, refuted without the condition: when the money suffices for one of the two, the first one gets it. *)
Theorem C106_money_refuted : forall dbg, exists e outs e1 x e2 e3 o' e4, valid_config (L dbg) /\ history (L dbg) [quote 100 101 1] e outs /\
  step (L dbg) e (OpLimit Buy (d 99) (d 9) 1) = Done (e1, Ok x) /\ step (L dbg) e1 (OpMarket Buy (d 5) 2) = Done (e2, Err (ERisk NotEnoughAvailableBalance)) /\
  step (L dbg) e (OpMarket Buy (d 5) 2) = Done (e3, Ok (OutMarket o')) /\ step (L dbg) e3 (OpLimit Buy (d 99) (d 9) 1) = Done (e4, Err (ERisk NotEnoughAvailableBalance)) /\
  position_quantity (ex_pos e2) = 0 /\ position_quantity (ex_pos e4) = d 5.
Proof. exact either_money. Qed.
Print Assumptions C106_money_refuted.
