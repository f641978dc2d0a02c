(** Property C103: market data that goes further fills more. *)
From Coq Require Import Permutation.
From Verif Require Import Base Types Position OrderBook OrderMargin MarketUpdate Exchange Spec SpecConfig SpecMarket SpecBroad Scenario ScenarioPanic ScenarioAgain ScenarioBroad BroadProof BroadFacts.

(** C103: of two updates of the same state, the one that goes further leaves no order that the other does not leave, and fills at least as much of each. *)
Theorem C103_left : forall c e ru ru' f f' l l', valid_config c -> reachable c e -> broader ru ru' ->
  step c e (OpUpdate ru) = Done (f, Ok (OutUpdates l)) -> step c e (OpUpdate ru') = Done (f', Ok (OutUpdates l')) ->
  forall x', In x' (ex_active f') -> exists x, In x (ex_active f) /\ lo_id x = lo_id x' /\ lo_uid x = lo_uid x' /\ lo_side x = lo_side x' /\ lo_price x = lo_price x' /\
    lo_rem x' <= lo_rem x /\ lo_filled_qty x <= lo_filled_qty x'.
Proof. exact broad_left. Qed.
Print Assumptions C103_left.

(** C103: with bids only, it leads to a larger position. *)
Theorem C103_bids : forall c e ru ru' f f' l l', valid_config c -> reachable c e -> broader ru ru' -> (forall o, In o (ex_active e) -> lo_side o = Buy) ->
  step c e (OpUpdate ru) = Done (f, Ok (OutUpdates l)) -> step c e (OpUpdate ru') = Done (f', Ok (OutUpdates l')) ->
  position_quantity (ex_pos e) <= position_quantity (ex_pos f) <= position_quantity (ex_pos f').
Proof. exact broad_bids. Qed.
Print Assumptions C103_bids.

(** C103: with offers only, it leads to a smaller one. *)
Theorem C103_offers : forall c e ru ru' f f' l l', valid_config c -> reachable c e -> broader ru ru' -> (forall o, In o (ex_active e) -> lo_side o = Sell) ->
  step c e (OpUpdate ru) = Done (f, Ok (OutUpdates l)) -> step c e (OpUpdate ru') = Done (f', Ok (OutUpdates l')) ->
  position_quantity (ex_pos f') <= position_quantity (ex_pos f) <= position_quantity (ex_pos e).
Proof. exact broad_offers. Qed.
Print Assumptions C103_offers.

Example C103_case : forall dbg, exists e x f g h l m n, valid_config (L dbg) /\ history (L dbg) two_bids e x /\ (forall o, In o (ex_active e) -> lo_side o = Buy) /\
  broader sale busy /\ broader busy around /\
  step (L dbg) e (OpUpdate sale) = Done (f, Ok (OutUpdates l)) /\ step (L dbg) e (OpUpdate busy) = Done (g, Ok (OutUpdates m)) /\ step (L dbg) e (OpUpdate around) = Done (h, Ok (OutUpdates n)) /\
  map lo_rem (ex_active f) = [d 1; d 1] /\ map lo_rem (ex_active g) = [] /\ map lo_rem (ex_active h) = [] /\
  position_quantity (ex_pos f) = d 1 /\ position_quantity (ex_pos g) = d 3 /\ position_quantity (ex_pos h) = d 3.
Proof. exact broad_case. Qed.

Example C103_offers_case : forall dbg, exists e x f h l n, valid_config (L dbg) /\ history (L dbg) one_offer e x /\ (forall o, In o (ex_active e) -> lo_side o = Sell) /\ broader bought bought_more /\
  step (L dbg) e (OpUpdate bought) = Done (f, Ok (OutUpdates l)) /\ step (L dbg) e (OpUpdate bought_more) = Done (h, Ok (OutUpdates n)) /\
  position_quantity (ex_pos f) = - d 1 /\ position_quantity (ex_pos h) = - d 2 /\ map lo_rem (ex_active f) = [d 2] /\ map lo_rem (ex_active h) = [d 1].
Proof. exact offers_case. Qed.
