(** Property C89: looser limits. *)
From Verif Require Import Base Types Filters Position OrderMargin MarketUpdate Exchange Spec SpecConfig SpecMarket SpecMachine SpecCrash SpecLoose LooseProof Scenario ScenarioPanic ScenarioLoose LooseFacts.

(** A history in which no order was refused by a filter or by the number of open orders is the same with looser filters and a larger number:
    the same answers and the same state. *)
Theorem C89_same : forall c max pf qf ops e outs, valid_config c -> valid_config (relax c max pf qf) -> looser c max pf qf ->
  history c ops e outs -> forallb (fun r => negb (refused r)) outs = true ->
  exists e', history (relax c max pf qf) ops e' outs /\ machine_of e' = machine_of e.
Proof. exact loose_history. Qed.
Print Assumptions C89_same.

(** Then a call that panics still panics at the same place, unless it was market data that the price filter does not allow or a liquidation of a
    quantity that the quantity filter does not allow. *)
Theorem C89_panics : forall c max pf qf e e' o w, valid_config c -> valid_config (relax c max pf qf) -> looser c max pf qf ->
  reachable c e -> reachable (relax c max pf qf) e' -> machine_of e' = machine_of e -> step c e o = Panic w ->
  step (relax c max pf qf) e' o = Panic w \/ w = PInvalidUpdateDebug \/ w = PLiquidateSubmit.
Proof. exact loose_step_panics. Qed.
Print Assumptions C89_panics.

(** Limits are looser if bounds are dropped or moved outwards, multiples are dropped and the steps, counted from the minimum, divide the old ones. *)
Theorem C89_wider : forall c max pf qf, valid_config c -> wider c max pf qf -> looser c max pf qf.
Proof. exact wider_looser. Qed.
Print Assumptions C89_wider.

Example C89_wider_case : valid_config narrow /\ wider narrow 10 wide_pf wide_qf /\ valid_config (relax narrow 10 wide_pf wide_qf).
Proof. exact narrow_wide. Qed.
Example C89_same_case : match play narrow loose_ops, play (relax narrow 10 wide_pf wide_qf) loose_ops with
  | Done (e, outs), Done (e', outs') => forallb (fun r => negb (refused r)) outs = true /\ outs' = outs /\ machine_of e' = machine_of e /\
      position_quantity (ex_pos e) = 5000 /\ length outs = 9%nat
  | _, _ => False end.
Proof. vm_compute. repeat split. Qed.
Example C89_panics_case : match play narrow [quote 100 101 1; OpLimit Buy (d 99) (d 2) 2], play (relax narrow 10 wide_pf wide_qf) [quote 100 101 1; OpLimit Buy (d 99) (d 2) 2] with
  | Done (e, _), Done (e', _) =>
      step narrow e (taker Sell 98 0 2) = Panic PTradeQtyDebug /\ step (relax narrow 10 wide_pf wide_qf) e' (taker Sell 98 0 2) = Panic PTradeQtyDebug /\
      step narrow e (taker Sell 9 1 2) = Panic PInvalidUpdateDebug /\
      match step (relax narrow 10 wide_pf wide_qf) e' (taker Sell 9 1 2) with Done _ => True | _ => False end
  | _, _ => False end.
Proof. vm_compute. repeat split. Qed.

(** After a refusal it is not the same, and looser limits can refuse more: with room for a second open order that order takes the money that a market
    order needs, which is filled if there is room for one. *)
Theorem C89_more_refuted : exists e outs e' outs',
  history (relax narrow 1 narrow_pf narrow_qf) crowded_ops e outs /\ history narrow crowded_ops e' outs' /\ looser (relax narrow 1 narrow_pf narrow_qf) 2 narrow_pf narrow_qf /\
  nth 2 outs (Ok OutUnit) = Err EMaxNumberOfActiveOrders /\ position_quantity (ex_pos e) = d 1 /\
  nth 3 outs' (Ok OutUnit) = Err (ERisk NotEnoughAvailableBalance) /\ position_quantity (ex_pos e') = 0.
Proof. exact crowded. Qed.
Print Assumptions C89_more_refuted.
