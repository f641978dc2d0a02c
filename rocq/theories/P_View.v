(** Properties C57 (more money never hurts), C58 (user order ids are opaque) and C59 (trading does not depend on times). *)
From Verif Require Import Base Types Accounting Position OrderMargin MarketUpdate Exchange Spec SpecConfig SpecView Scenario ScenarioPanic ViewProof ViewFacts.

(** C57: a history in which no order is refused for lack of funds goes exactly the same way with a larger starting balance. *)
Theorem C57_more_money_same_history : forall c k ops e outs,
  0 <= k -> history c ops e outs -> ~ Exists refused outs ->
  exists e', history (richer_config k c) ops e' outs /\ more_money k e e'.
Proof. exact more_history. Qed.
Print Assumptions C57_more_money_same_history.
(** C57: the next call of such a history is refused, or answered in the same way with more money. *)
Theorem C57_more_money_same_call : forall c k ops e outs e' outs' o e1 r,
  0 <= k -> history c ops e outs -> ~ Exists refused outs -> history (richer_config k c) ops e' outs' ->
  step c e o = Done (e1, r) ->
  refused r \/ exists e1', step (richer_config k c) e' o = Done (e1', r) /\ more_money k e1 e1'.
Proof. exact more_call. Qed.
Print Assumptions C57_more_money_same_call.
Theorem C57_more_money_refuses_less : forall c k ops e outs e' outs' o e1 r e1' r',
  0 <= k -> history c ops e outs -> ~ Exists refused outs -> history (richer_config k c) ops e' outs' ->
  step c e o = Done (e1, r) -> step (richer_config k c) e' o = Done (e1', r') -> refused r' -> refused r.
Proof. exact more_refused. Qed.
Print Assumptions C57_more_money_refuses_less.
(** C57: more money only avoids the panics about a negative wallet and about an unaffordable liquidation ... *)
Theorem C57_more_money_panics : forall c k ops e outs e' outs' o w,
  valid_config c -> 0 <= k -> history c ops e outs -> ~ Exists refused outs -> history (richer_config k c) ops e' outs' ->
  step c e o = Panic w -> In w saved \/ step (richer_config k c) e' o = Panic w.
Proof. exact more_panic. Qed.
Print Assumptions C57_more_money_panics.
(** ... and panics only where the smaller account panics too or refuses the order. *)
Theorem C57_more_money_new_panics : forall c k ops e outs e' outs' o w,
  0 <= k -> history c ops e outs -> ~ Exists refused outs -> history (richer_config k c) ops e' outs' ->
  step (richer_config k c) e' o = Panic w ->
  (exists w', step c e o = Panic w') \/ exists e1 r, step c e o = Done (e1, r) /\ refused r.
Proof. exact more_new_panic. Qed.
Print Assumptions C57_more_money_new_panics.

(** C58: renaming the user order ids of a history renames them in everything it reports, panics included. *)
Theorem C58_user_ids_opaque : forall c f ops,
  valid_config c -> (forall a b, f a = f b -> a = b) ->
  reports (play c (map (see_op (renamed f)) ops)) = see_reports (renamed f) (reports (play c ops)).
Proof. intros c f ops V I. exact (lens_reports (renamed f) c ops V I eq_refl eq_refl). Qed.
Print Assumptions C58_user_ids_opaque.
Theorem C58_user_ids_opaque_state : forall c f ops e outs,
  (forall a b, f a = f b -> a = b) -> history c ops e outs ->
  exists e', history c (map (see_op (renamed f)) ops) e' (map (see_result (see_out (renamed f))) outs) /\ seen (renamed f) e e'.
Proof. intros c f ops e outs I H. exact (lens_history (renamed f) c ops e outs I eq_refl eq_refl H). Qed.
Print Assumptions C58_user_ids_opaque_state.

(** C59: the same calls at other times report the same, times apart, panics included ... *)
Theorem C59_times_do_not_matter : forall c ops ops',
  valid_config c -> same_but_times ops ops' ->
  see_reports timeless (reports (play c ops)) = see_reports timeless (reports (play c ops')).
Proof. exact times_reports. Qed.
Print Assumptions C59_times_do_not_matter.
(** ... and lead to the same accounts, position, quotes and resting orders. *)
Theorem C59_times_do_not_matter_state : forall c ops ops' e outs,
  valid_config c -> same_but_times ops ops' -> history c ops e outs ->
  exists e' outs', history c ops' e' outs' /\
    map (see_result (see_out timeless)) outs' = map (see_result (see_out timeless)) outs /\ same_trading_but_times e e'.
Proof. exact times_history. Qed.
Print Assumptions C59_times_do_not_matter_state.

(** Non-vacuity: the long demo history has no refusal and ends in a liquidation; a purchase that is too large for 1000 is accepted with 2000. *)
Example C57_case :
  match play (demo_cfg Linear true) demo_ops with
  | Done (e, rs) =>
      forallb not_refused rs = true /\
      match play (richer_config (d 1000) (demo_cfg Linear true)) demo_ops with
      | Done (e', rs') => rs' = rs /\ margin_balance_of (ex_acc e') WALLET = margin_balance_of (ex_acc e) WALLET + d 1000
      | Panic _ => False
      end
  | Panic _ => False
  end /\
  match play (demo_cfg Linear true) [quote 100 101 1; OpMarket Buy (d 15) 1],
        play (richer_config (d 1000) (demo_cfg Linear true)) [quote 100 101 1; OpMarket Buy (d 15) 1] with
  | Done (_, rs), Done (_, rs') => forallb not_refused rs = false /\ forallb not_refused rs' = true
  | _, _ => False
  end.
Proof. vm_compute. repeat split. Qed.
Example C58_case :
  valid_config (demo_cfg Linear true) /\
  match play (demo_cfg Linear true) (map (see_op (renamed (fun u => 1000 - u))) demo_ops) with
  | Done (_, rs) => 
      match nth_error rs 9 with Some (Ok (OutLimit o)) => lo_uid o = 993 /\ lo_price o = d 98 | _ => False end
  | Panic _ => False
  end.
Proof. split; [apply demo_valid; cbn; lia || auto | vm_compute; repeat split]. Qed.
Example C59_case :
  same_but_times [quote 100 101 5; OpLimit Buy (d 99) (d 2) 7; taker Sell 98 (d 1) 9] [quote 100 101 70; OpLimit Buy (d 99) (d 2) 7; taker Sell 98 (d 1) 3] /\
  match play (demo_cfg Linear true) [quote 100 101 5; OpLimit Buy (d 99) (d 2) 7; taker Sell 98 (d 1) 9],
        play (demo_cfg Linear true) [quote 100 101 70; OpLimit Buy (d 99) (d 2) 7; taker Sell 98 (d 1) 3] with
  | Done (e, [_; _; Ok (OutUpdates [PartiallyFilled o])]), Done (e', [_; _; Ok (OutUpdates [PartiallyFilled o'])]) =>
      lo_ts o = 5 /\ lo_ts o' = 70 /\ position_quantity (ex_pos e) = d 1 /\ ex_pos e' = ex_pos e
  | _, _ => False
  end.
Proof. vm_compute. repeat split. Qed.
