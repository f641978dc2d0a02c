(** Property C95: a limit price that is harder to get. *)
From Verif Require Import Base Types Position OrderBook OrderMargin MarketUpdate Exchange Spec SpecConfig SpecMarket SpecPanic SpecBargain SpecPatience Scenario ScenarioPanic ScenarioPatience PatienceProof PatienceFacts.

(** C95: of two accounts with one order each, for the same side and quantity, no update of the market fills more of the one with the better price. *)
Theorem C95_fills : forall c e1 e2 a b ru f1 r1 f2 r2, valid_config c -> reachable c e1 -> reachable c e2 -> more_patient e1 e2 a b -> real_trades ru ->
  step c e1 (OpUpdate ru) = Done (f1, Ok r1) -> step c e2 (OpUpdate ru) = Done (f2, Ok r2) -> moved e2 f2 <= moved e1 f1.
Proof. exact patience_fills. Qed.
Print Assumptions C95_fills.

Example C95_fills_case : forall dbg, exists e1 x1 e2 x2 a b f1 r1 f2 r2, history (L dbg) eager e1 x1 /\ history (L dbg) calm e2 x2 /\ valid_config (L dbg) /\ more_patient e1 e2 a b /\ real_trades candle /\
  step (L dbg) e1 (OpUpdate candle) = Done (f1, Ok r1) /\ step (L dbg) e2 (OpUpdate candle) = Done (f2, Ok r2) /\ moved e1 f1 = 7000 /\ moved e2 f2 = 3000.
Proof. exact fills_case. Qed.

(** C95: when the update fills as much of both, and this opens a position or closes no more than there is, the account with the better price is worth at least as much,
    whatever the position is valued at; the maker fee may be a rebate but is at most the whole value. *)
Theorem C95_money : forall c e1 e2 a b ru f1 r1 f2 r2 m, valid_config c -> reachable c e1 -> reachable c e2 -> statement_of e1 = statement_of e2 -> more_patient e1 e2 a b -> real_trades ru ->
  - c_scale c <= ct_maker (c_spec c) <= c_scale c -> step c e1 (OpUpdate ru) = Done (f1, Ok r1) -> step c e2 (OpUpdate ru) = Done (f2, Ok r2) ->
  moved e1 f1 = moved e2 f2 -> opens_or_reduces e1 (lo_side a) (moved e1 f1) -> worth c m f1 <= worth c m f2.
Proof. exact patience_money. Qed.
Print Assumptions C95_money.

Example C95_money_case : forall dbg, exists e1 x1 e2 x2 a b f1 r1 f2 r2, history (L dbg) eager e1 x1 /\ history (L dbg) calm e2 x2 /\ valid_config (L dbg) /\ statement_of e1 = statement_of e2 /\ more_patient e1 e2 a b /\
  real_trades deep /\ - c_scale (L dbg) <= ct_maker (c_spec (L dbg)) <= c_scale (L dbg) /\
  step (L dbg) e1 (OpUpdate deep) = Done (f1, Ok r1) /\ step (L dbg) e2 (OpUpdate deep) = Done (f2, Ok r2) /\ moved e1 f1 = d 1 /\ moved e2 f2 = d 1 /\
  opens_or_reduces e1 (lo_side a) (moved e1 f1) /\ worth (L dbg) (d 100) f1 < worth (L dbg) (d 100) f2.
Proof. exact money_case. Qed.

(** C95: the better price can miss the market, and then the account can be worth less. *)
Theorem C95_missed_refuted : forall dbg, exists e1 x1 e2 x2 a b f1 r1 f2 r2, history (L dbg) eager e1 x1 /\ history (L dbg) calm e2 x2 /\ valid_config (L dbg) /\ statement_of e1 = statement_of e2 /\ more_patient e1 e2 a b /\
  real_trades shallow /\ step (L dbg) e1 (OpUpdate shallow) = Done (f1, Ok r1) /\ step (L dbg) e2 (OpUpdate shallow) = Done (f2, Ok r2) /\ moved e1 f1 = d 1 /\ moved e2 f2 = 0 /\
  worth (L dbg) (d 100) f2 < worth (L dbg) (d 100) f1.
Proof. exact missed_case. Qed.
Print Assumptions C95_missed_refuted.
