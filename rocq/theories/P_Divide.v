(** Property C91: a limit order in parts. *)
From Verif Require Import Base Types Position OrderBook OrderMargin MarketUpdate Exchange Spec SpecConfig SpecRules SpecMarket SpecMargin SpecPanic SpecMachine SpecEntry SpecSplit SpecBatch SpecSlice SpecDivide
  Scenario ScenarioPanic ScenarioSlice ScenarioDivide DivideProof DivideFacts.

(** C91: the parts of a limit order, at the same price, need no more margin than the whole, and at most one unit of the last decimal
    place less for every additional part; whatever else rests in the book and whatever the position [n] hedges. *)
Theorem C91_margin : forall c e sd p uid l n, valid_config c -> reachable c e -> 0 < p -> (forall q, In q l -> 0 < q) -> l <> [] ->
  need c (book_with e (tickets sd p uid l)) n <= need c (book_with e (tickets sd p uid [sumZ l])) n <= need c (book_with e (tickets sd p uid l)) n + extra l.
Proof. exact need_parts. Qed.
Print Assumptions C91_margin.

Example C91_margin_case : match play (tiny Linear true) wide_start with
  | Done (e, _) => need (tiny Linear true) (book_with e (tickets Buy 5 1 halves)) 0 = 2 /\ need (tiny Linear true) (book_with e (tickets Buy 5 1 [sumZ halves])) 0 = 3 /\
      need (tiny Linear true) (book_with e (tickets Buy 5 1 halves)) (-4) = 1
  | _ => False end.
Proof. vm_compute. repeat split. Qed.

(** C91: if the whole is accepted the parts are, provided that each passes the quantity filter and there are places for all of them.
    The wallet is the same up to one unit for every additional part, never less; position, money and fees are the same. *)
Theorem C91_accepted : forall c e sd p uid l ew, valid_config c -> reachable c e -> in_sync c e -> l <> [] -> accepts c e (tickets sd p uid [sumZ l]) ew ->
  sizes_ok c l -> Z.of_nat (length (ex_active e) + length l) <= c_max c ->
  exists ep, accepts c e (tickets sd p uid l) ep /\ wallet_of ew <= wallet_of ep <= wallet_of ew + extra l /\ statement_of ep = statement_of ew /\
    position_margin_of ep = position_margin_of ew.
Proof. exact divide_accepted. Qed.
Print Assumptions C91_accepted.

Example C91_accepted_case : exists e outs ew ep, history (tiny Linear true) wide_start e outs /\ valid_config (tiny Linear true) /\ in_sync (tiny Linear true) e /\ sizes_ok (tiny Linear true) halves /\
  accepts (tiny Linear true) e (tickets Buy 5 1 [sumZ halves]) ew /\ accepts (tiny Linear true) e (tickets Buy 5 1 halves) ep /\ wallet_of ew = 997 /\ wallet_of ep = 998.
Proof. exact wide_case. Qed.

(** C91: not the other way round: rounding lets parts pass for which there is no money as a whole. *)
Theorem C91_whole_refuted : forall dbg, exists e outs ew ep, history (tiny Linear dbg) wide_start e outs /\ in_sync (tiny Linear dbg) e /\
  run (tiny Linear dbg) e (map sent (tickets Buy 1 1 [sumZ dust])) = Done (ew, [Err (ERisk NotEnoughAvailableBalance)]) /\ accepts (tiny Linear dbg) e (tickets Buy 1 1 dust) ep.
Proof. exact dust_case. Qed.
Print Assumptions C91_whole_refuted.

(** C91: the same trades fill the parts no less than the whole.  Each part gets the whole quantity [x] that crosses the limit, so up to
    [x] more is filled for every additional part, until all of the order is filled. *)
Theorem C91_filled : forall c e sd p uid l ew ep tr ew' ow ep' op, valid_config c -> reachable c e -> in_sync c e -> l <> [] ->
  accepts c e (tickets sd p uid [sumZ l]) ew -> accepts c e (tickets sd p uid l) ep -> (forall t, In t tr -> 0 < tr_qty t) ->
  run c ew (trade_ops tr) = Done (ew', ow) -> all_accepted ow -> run c ep (trade_ops tr) = Done (ep', op) -> all_accepted op ->
  let x := crossing_at sd p tr in
  position_quantity (ex_pos ep') = position_quantity (ex_pos ew') + signed_by sd (filled_parts x l - Z.min x (sumZ l)) /\
  0 <= filled_parts x l - Z.min x (sumZ l) <= Z.min (extra l * x) (sumZ l - Z.min x (sumZ l)).
Proof. exact divide_filled. Qed.
Print Assumptions C91_filled.

Example C91_filled_case : crossing_at Buy (d 98) one_seller = 15000 /\ filled_parts 15000 two_ones = d 2 /\ Z.min 15000 (sumZ two_ones) = 15000 /\ extra two_ones = 1.
Proof. vm_compute. repeat split. Qed.

(** C91: so the position is not the same, and a trade fills more of the user's orders than its own quantity: 1.5 sold at 97 fill 1.5 of
    one bid for 2 at 98, but all of two bids for 1. *)
Theorem C91_same_refuted : forall dbg, exists e outs ew ep ew' ow ep' op, history (L dbg) pair_start e outs /\ valid_config (L dbg) /\ in_sync (L dbg) e /\
  accepts (L dbg) e (tickets Buy (d 98) 1 [sumZ two_ones]) ew /\ accepts (L dbg) e (tickets Buy (d 98) 1 two_ones) ep /\
  run (L dbg) ew (trade_ops one_seller) = Done (ew', ow) /\ all_accepted ow /\ run (L dbg) ep (trade_ops one_seller) = Done (ep', op) /\ all_accepted op /\
  position_quantity (ex_pos ew') = 15000 /\ position_quantity (ex_pos ep') = d 2.
Proof. exact filled_case. Qed.
Print Assumptions C91_same_refuted.
