(** Property C94: a better price. *)
From Verif Require Import Base Types Position OrderBook OrderMargin MarketUpdate Exchange Spec SpecConfig SpecMarket SpecPanic SpecBargain Scenario ScenarioPanic ScenarioBargain BargainProof BargainMore BargainFacts.

(** C94: a market order that opens a position or closes no more than there is leaves the account worth at least as much at a better price, whatever the position is
    valued at; the taker fee may be a rebate but is at most the whole value. *)
Theorem C94_opening_and_reducing : forall c e1 e2 sd q u1 u2 f1 f2 o1 o2 m, valid_config c -> reachable c e1 -> reachable c e2 -> statement_of e1 = statement_of e2 ->
  - c_scale c <= ct_taker (c_spec c) <= c_scale c -> no_worse sd (deal e2 sd) (deal e1 sd) -> opens_or_reduces e1 sd q ->
  step c e1 (OpMarket sd q u1) = Done (f1, Ok o1) -> step c e2 (OpMarket sd q u2) = Done (f2, Ok o2) -> worth c m f1 <= worth c m f2.
Proof. exact bargain_simple. Qed.
Print Assumptions C94_opening_and_reducing.

Example C94_opening_and_reducing_case : forall dbg, exists e1 x1 e2 x2 f1 o1 f2 o2, history (L dbg) (owner ++ [quote 99 100 2]) e1 x1 /\ history (L dbg) (owner ++ [quote 102 103 2]) e2 x2 /\ valid_config (L dbg) /\
  statement_of e1 = statement_of e2 /\ - c_scale (L dbg) <= ct_taker (c_spec (L dbg)) <= c_scale (L dbg) /\ no_worse Sell (deal e2 Sell) (deal e1 Sell) /\ opens_or_reduces e1 Sell (d 1) /\
  step (L dbg) e1 (OpMarket Sell (d 1) 2) = Done (f1, Ok o1) /\ step (L dbg) e2 (OpMarket Sell (d 1) 2) = Done (f2, Ok o2) /\ worth (L dbg) (d 100) f1 < worth (L dbg) (d 100) f2.
Proof. exact simple_case. Qed.

(** C94: where the better price is the one with the smaller value (buying linear contracts, selling inverse contracts) this holds for every market order. *)
Theorem C94_smaller_value : forall c e1 e2 sd q u1 u2 f1 f2 o1 o2 m, valid_config c -> reachable c e1 -> reachable c e2 -> statement_of e1 = statement_of e2 ->
  0 <= ct_taker (c_spec c) -> smaller_is_better (c_kind c) sd -> no_worse sd (deal e2 sd) (deal e1 sd) ->
  (c_kind c = Inverse -> 0 < position_entry_price (ex_pos f1) \/ position_quantity (ex_pos f1) = 0) ->
  step c e1 (OpMarket sd q u1) = Done (f1, Ok o1) -> step c e2 (OpMarket sd q u2) = Done (f2, Ok o2) -> worth c m f1 <= worth c m f2.
Proof. exact bargain_smaller. Qed.
Print Assumptions C94_smaller_value.

Example C94_smaller_value_case : forall dbg, exists e1 x1 e2 x2 f1 o1 f2 o2, history (L dbg) (owner ++ [quote 103 104 2]) e1 x1 /\ history (L dbg) (owner ++ [quote 102 103 2]) e2 x2 /\ valid_config (L dbg) /\
  statement_of e1 = statement_of e2 /\ 0 <= ct_taker (c_spec (L dbg)) /\ smaller_is_better (c_kind (L dbg)) Buy /\ no_worse Buy (deal e2 Buy) (deal e1 Buy) /\
  step (L dbg) e1 (OpMarket Buy (d 1) 2) = Done (f1, Ok o1) /\ step (L dbg) e2 (OpMarket Buy (d 1) 2) = Done (f2, Ok o2) /\ worth (L dbg) (d 100) f1 < worth (L dbg) (d 100) f2.
Proof. exact smaller_case. Qed.

Example C94_smaller_value_inverse_case : forall dbg, exists e1 x1 e2 x2 f1 o1 f2 o2, history (demo_cfg Inverse dbg) [quote 100 101 1; OpMarket Sell (d 100) 1; quote 98 99 2] e1 x1 /\
  history (demo_cfg Inverse dbg) [quote 100 101 1; OpMarket Sell (d 100) 1; quote 99 100 2] e2 x2 /\
  statement_of e1 = statement_of e2 /\ 0 <= ct_taker (c_spec (demo_cfg Inverse dbg)) /\ smaller_is_better (c_kind (demo_cfg Inverse dbg)) Sell /\ no_worse Sell (deal e2 Sell) (deal e1 Sell) /\
  0 < position_entry_price (ex_pos f1) /\ step (demo_cfg Inverse dbg) e1 (OpMarket Sell (d 50) 2) = Done (f1, Ok o1) /\ step (demo_cfg Inverse dbg) e2 (OpMarket Sell (d 50) 2) = Done (f2, Ok o2) /\
  worth (demo_cfg Inverse dbg) (d 100) f1 < worth (demo_cfg Inverse dbg) (d 100) f2.
Proof. exact inverse_case. Qed.

(** C94: and there an order accepted at the worse price is not refused at the better one. *)
Theorem C94_accepted : forall c e1 e2 sd q u1 u2 f1 f2 o1 r2, valid_config c -> reachable c e1 -> reachable c e2 -> statement_of e1 = statement_of e2 ->
  position_margin_of e1 = position_margin_of e2 -> order_margin_of e1 = order_margin_of e2 -> 0 <= ct_taker (c_spec c) ->
  smaller_is_better (c_kind c) sd -> no_worse sd (deal e2 sd) (deal e1 sd) -> 0 < deal e2 sd ->
  step c e1 (OpMarket sd q u1) = Done (f1, Ok o1) -> step c e2 (OpMarket sd q u2) = Done (f2, r2) -> exists o2, r2 = Ok o2.
Proof. exact bargain_accepted. Qed.
Print Assumptions C94_accepted.

(** C94: it can panic, though: at the lower price the margin of a small order rounds to nothing. *)
Theorem C94_panic_refuted : forall dbg, exists e1 x1 e2 x2 f1 o1, history (penny dbg) [raw_quote 8 10 1] e1 x1 /\ history (penny dbg) [raw_quote 8 9 1] e2 x2 /\ valid_config (penny dbg) /\
  statement_of e1 = statement_of e2 /\ deal e1 Buy = 10 /\ deal e2 Buy = 9 /\
  step (penny dbg) e1 (OpMarket Buy 1 2) = Done (f1, Ok o1) /\ step (penny dbg) e2 (OpMarket Buy 1 2) = Panic PTxAmount.
Proof. exact cheap_case. Qed.
Print Assumptions C94_panic_refuted.

(** C94: on the other side a better price can be refused, because the margin and the fee grow with the price. *)
Theorem C94_accepted_refuted : forall dbg, exists e1 x1 e2 x2 f1 o1 f2, history (penny dbg) [raw_quote 10 12 1] e1 x1 /\ history (penny dbg) [raw_quote 11 12 1] e2 x2 /\ valid_config (penny dbg) /\
  statement_of e1 = statement_of e2 /\ deal e1 Sell = 10 /\ deal e2 Sell = 11 /\
  step (penny dbg) e1 (OpMarket Sell 900 2) = Done (f1, Ok o1) /\ step (penny dbg) e2 (OpMarket Sell 900 2) = Done (f2, Err (ERisk NotEnoughAvailableBalance)).
Proof. exact dear_case. Qed.
Print Assumptions C94_accepted_refuted.

(** C94: and adding to a position at a better price can cost a unit: the fee rises, and the average entry price, rounded down, does not. *)
Theorem C94_adding_refuted : forall dbg, exists e1 x1 e2 x2 f1 o1 f2 o2, history (penny dbg) (debtor ++ [raw_quote 9 11 2]) e1 x1 /\ history (penny dbg) (debtor ++ [raw_quote 10 11 2]) e2 x2 /\ valid_config (penny dbg) /\
  statement_of e1 = statement_of e2 /\ deal e1 Sell = 9 /\ deal e2 Sell = 10 /\
  step (penny dbg) e1 (OpMarket Sell 10 2) = Done (f1, Ok o1) /\ step (penny dbg) e2 (OpMarket Sell 10 2) = Done (f2, Ok o2) /\ forall m, worth (penny dbg) m f2 = worth (penny dbg) m f1 - 1.
Proof. exact adding_case. Qed.
Print Assumptions C94_adding_refuted.

(** C94: adding to a linear short position at a better price costs less than one unit and one tick of the entry price on the whole position. *)
Theorem C94_adding : forall c e1 e2 q u1 u2 f1 f2 o1 o2 m i, valid_config c -> reachable c e1 -> reachable c e2 -> statement_of e1 = statement_of e2 -> c_kind c = Linear ->
  - c_scale c <= ct_taker (c_spec c) <= c_scale c -> deal e1 Sell <= deal e2 Sell -> ex_pos e1 = Short i ->
  step c e1 (OpMarket Sell q u1) = Done (f1, Ok o1) -> step c e2 (OpMarket Sell q u2) = Done (f2, Ok o2) ->
  c_scale c * (worth c m f1 - worth c m f2) < Z.abs (position_quantity (ex_pos f1)) + c_scale c.
Proof. exact bargain_adding. Qed.
Print Assumptions C94_adding.

(** C94: so can turning a position round: the two parts are rounded separately, the value the fee is taken from is not. *)
Theorem C94_turning_refuted : forall dbg, exists e1 x1 e2 x2 f1 o1 f2 o2, history (penny dbg) (small_owner ++ [raw_quote 12 14 2]) e1 x1 /\ history (penny dbg) (small_owner ++ [raw_quote 13 14 2]) e2 x2 /\ valid_config (penny dbg) /\
  statement_of e1 = statement_of e2 /\ deal e1 Sell = 12 /\ deal e2 Sell = 13 /\
  step (penny dbg) e1 (OpMarket Sell 8 2) = Done (f1, Ok o1) /\ step (penny dbg) e2 (OpMarket Sell 8 2) = Done (f2, Ok o2) /\ wealth_of f2 = wealth_of f1 - 1 /\ worth (penny dbg) 13 f2 = worth (penny dbg) 13 f1 - 1.
Proof. exact turning_case. Qed.
Print Assumptions C94_turning_refuted.

(** C94: without adding, a better price costs at most one unit. *)
Theorem C94_turning : forall c e1 e2 sd q u1 u2 f1 f2 o1 o2 m, valid_config c -> reachable c e1 -> reachable c e2 -> statement_of e1 = statement_of e2 ->
  - c_scale c <= ct_taker (c_spec c) <= c_scale c -> no_worse sd (deal e2 sd) (deal e1 sd) -> (same_side sd (ex_pos e1) = false \/ ex_pos e1 = Neutral) ->
  step c e1 (OpMarket sd q u1) = Done (f1, Ok o1) -> step c e2 (OpMarket sd q u2) = Done (f2, Ok o2) -> worth c m f1 - 1 <= worth c m f2.
Proof. exact bargain_turning. Qed.
Print Assumptions C94_turning.
