(** Property C85: what the leverage changes. *)
From Verif Require Import Base Types Filters Accounting Position OrderBook OrderMargin MarketUpdate Exchange Spec SpecConfig SpecMarket SpecMargin SpecMachine
  Scenario ScenarioPanic SpecGear GearProof MaintProof ScenarioGear GearFacts.

(** Two accounts that differ in leverage and are sent the same calls: as long as the same calls are accepted, all reports are the same
    and so are market, orders, position, total balance and fees.  Only the split of the balance into wallet and margins differs. *)
Theorem C85_only_margins : forall c imr mm ops e outs e' outs', valid_config c -> valid_config (geared imr mm c) ->
  history c ops e outs -> history (geared imr mm c) ops e' outs' -> map accepted outs = map accepted outs' ->
  same_but_margins e e' /\ Forall2 same_answer outs outs'.
Proof. exact gear_neutral. Qed.
Print Assumptions C85_only_margins.

Example C85_shared : match play lev1 shared_ops, play lev2 shared_ops with
  | Done (e, outs), Done (e', outs') => map accepted outs = map accepted outs' /\ position_quantity (ex_pos e) = - d 2 /\
      position_margin_of e = 2 * position_margin_of e' /\ wealth_of e = wealth_of e' /\ wallet_of e < wallet_of e'
  | _, _ => False end.
Proof. vm_compute. auto. Qed.

(** With more leverage every order that would have been accepted is accepted, if the reserved margins are right and the posted
    margin is no larger. *)
Theorem C85_accepts : forall c imr mm e e' o e1 r e1' r', valid_config c -> valid_config (geared imr mm c) -> more_leverage imr mm c ->
  reachable c e -> reachable (geared imr mm c) e' -> same_but_margins e e' ->
  reserved_right c e -> reserved_right (geared imr mm c) e' -> position_margin_of e' <= position_margin_of e ->
  match o with OpUpdate _ | OpCheck _ => False | _ => True end ->
  step c e o = Done (e1, Ok r) -> step (geared imr mm c) e' o = Done (e1', r') -> r' = Ok r /\ same_but_margins e1 e1'.
Proof. exact (fun c imr mm e e' o e1 r e1' r' V V' L => gear_accepts c imr mm V V' L e e' o e1 r e1' r'). Qed.
Print Assumptions C85_accepts.

(** After the history above leverage 2 can buy 14 contracts, leverage 1 cannot; both can buy 5. *)
Example C85_accepts_case : match play lev1 shared_ops, play lev2 shared_ops with
  | Done (e, _), Done (e', _) =>
      order_margin_of e = need lev1 (ex_active e) (- d 2) /\ order_margin_of e' = need lev2 (ex_active e') (- d 2) /\ position_margin_of e' <= position_margin_of e /\
      match step lev1 e (OpMarket Sell (d 5) 9), step lev2 e' (OpMarket Sell (d 5) 9) with
      | Done (_, r), Done (_, r') => accepted r = true /\ accepted r' = true | _, _ => False end /\
      match step lev1 e (OpMarket Sell (d 14) 9), step lev2 e' (OpMarket Sell (d 14) 9) with
      | Done (_, r), Done (_, r') => accepted r = false /\ accepted r' = true | _, _ => False end
  | _, _ => False end.
Proof. vm_compute. repeat split; discriminate. Qed.

(** With more leverage every update that would have liquidated the position liquidates it. *)
Theorem C85_liquidates : forall c imr mm e e' ru e1 x e1' r', valid_config c -> valid_config (geared imr mm c) -> more_leverage imr mm c ->
  reachable c e -> reachable (geared imr mm c) e' -> same_but_margins e e' ->
  step c e (OpUpdate ru) = Done (e1, Err x) -> step (geared imr mm c) e' (OpUpdate ru) = Done (e1', r') ->
  x = ERisk Liquidate /\ r' = Err (ERisk Liquidate) /\ same_but_margins e1 e1'.
Proof. exact (fun c imr mm e e' ru e1 x e1' r' V V' L => gear_liquidates c imr mm V V' L e e' ru e1 x e1' r'). Qed.
Print Assumptions C85_liquidates.

(** A short sold at 100 is liquidated at 130 with leverage 2, and at 160 with both. *)
Example C85_liquidates_case : match play lev1 shared_ops, play lev2 shared_ops with
  | Done (e, _), Done (e', _) =>
      match step lev1 e (quote 129 130 9), step lev2 e' (quote 129 130 9) with
      | Done (_, r), Done (_, r') => accepted r = true /\ r' = Err (ERisk Liquidate) | _, _ => False end /\
      match step lev1 e (quote 159 160 9), step lev2 e' (quote 159 160 9) with
      | Done (_, r), Done (_, r') => r = Err (ERisk Liquidate) /\ r' = Err (ERisk Liquidate) | _, _ => False end
  | _, _ => False end.
Proof. vm_compute. auto. Qed.

(** More leverage can refuse more: in release builds closing in pieces leaves margin behind, more with the higher leverage.  After four
    rounds without a profit or a loss the account with leverage 2 cannot buy what the one with leverage 1 can. *)
Theorem C85_accepts_refuted : exists e outs e' outs',
  history (purse false) pieces_ops e outs /\ history (purse2 false) pieces_ops e' outs' /\
  map accepted outs = map accepted outs' /\ same_but_margins e e' /\ reserved_right (purse false) e /\ reserved_right (purse2 false) e' /\
  ex_pos e = Neutral /\ ex_pos e' = Neutral /\ position_margin_of e = 0 /\ position_margin_of e' = 8 /\
  (exists e1 f, step (purse false) e (OpMarket Buy 12 1) = Done (e1, Ok (OutMarket f))) /\
  (exists e1, step (purse2 false) e' (OpMarket Buy 12 1) = Done (e1, Err (ERisk NotEnoughAvailableBalance))).
Proof. exact refused_more. Qed.
Print Assumptions C85_accepts_refuted.

(** With a larger maintenance margin and the same leverage nothing changes until a position is liquidated. *)
Theorem C85_maintenance : forall c mm ops e outs, valid_config c -> valid_config (geared (ct_imr (c_spec c)) mm c) -> ct_mm (c_spec c) <= mm ->
  history c ops e outs -> forallb unliquidated outs = true ->
  exists e', history (geared (ct_imr (c_spec c)) mm c) ops e' outs /\ machine_of e' = machine_of e.
Proof. exact maint_history. Qed.
Print Assumptions C85_maintenance.

Example C85_maintenance_case : valid_config upkeep /\ ct_mm (c_spec lev1) <= ct_mm (c_spec upkeep) /\ match play lev1 shared_ops, play upkeep shared_ops with
  | Done (e, outs), Done (e', outs') => forallb unliquidated outs = true /\ outs' = outs /\ machine_of e' = machine_of e /\ position_quantity (ex_pos e) = - d 2
  | _, _ => False end.
Proof. split; [exact upkeep_valid|]. split; [discriminate | vm_compute; repeat split]. Qed.

(** A larger maintenance margin does not liquidate sooner, as the words suggest, but later: the price of 160 liquidates a short sold at 100 that has to
    keep half of its margin, not one that has to keep four fifths. *)
Theorem C85_maintenance_refuted : exists e outs e' outs', history lev1 (shared_ops ++ [quote 159 160 9]) e outs /\ history upkeep (shared_ops ++ [quote 159 160 9]) e' outs' /\
  ct_mm (c_spec lev1) < ct_mm (c_spec upkeep) /\ ct_imr (c_spec lev1) = ct_imr (c_spec upkeep) /\
  nth 8 outs (Ok OutUnit) = Err (ERisk Liquidate) /\ ex_pos e = Neutral /\ nth 8 outs' (Ok OutUnit) = Ok (OutUpdates []) /\ position_quantity (ex_pos e') = - d 2.
Proof. exact kept_later. Qed.
Print Assumptions C85_maintenance_refuted.

Example C85_valid : valid_config lev1 /\ valid_config lev2 /\ more_leverage 5000 2500 lev1 /\ valid_config (purse false) /\ valid_config (purse2 false) /\
  more_leverage 5 2 (purse false).
Proof. refine (conj (proj1 lev_valid) (conj (proj2 lev_valid) (conj _ (conj (proj1 (purse_valid false)) (conj (proj2 (purse_valid false)) _))))); vm_compute; split; discriminate. Qed.
