(** Property C75: lower fees never hurt. *)
From Verif Require Import Base Types Accounting Position OrderMargin MarketUpdate Exchange Spec SpecConfig SpecMarket SpecView SpecCheap Scenario ScenarioPanic ViewFacts CheapProof CheapFacts.

(** C75: a history in which no order is refused for lack of funds goes exactly the same way when a fee rate is lowered (below 0
    if you like) or the starting balance raised; what is no longer paid in fees is in the wallet. *)
Theorem C75_lower_fees_same_history : forall c maker taker gift ops e outs,
  valid_config c -> cheaper maker taker gift c -> history c ops e outs -> ~ Exists refused outs ->
  exists e', history (repriced maker taker gift c) ops e' outs /\ better_off gift e e'.
Proof. exact cheap_history. Qed.
Print Assumptions C75_lower_fees_same_history.
(** C75: the next call of such a history is refused, or answered in the same way with lower fees. *)
Theorem C75_lower_fees_same_call : forall c maker taker gift ops e outs e' outs' o e1 r,
  valid_config c -> cheaper maker taker gift c -> history c ops e outs -> ~ Exists refused outs ->
  history (repriced maker taker gift c) ops e' outs' -> step c e o = Done (e1, r) ->
  refused r \/ exists e1', step (repriced maker taker gift c) e' o = Done (e1', r) /\ better_off gift e1 e1'.
Proof. exact cheap_answer. Qed.
Print Assumptions C75_lower_fees_same_call.
Theorem C75_lower_fees_refuse_less : forall c maker taker gift ops e outs e' outs' o e1 r e1' r',
  valid_config c -> cheaper maker taker gift c -> history c ops e outs -> ~ Exists refused outs ->
  history (repriced maker taker gift c) ops e' outs' ->
  step c e o = Done (e1, r) -> step (repriced maker taker gift c) e' o = Done (e1', r') -> refused r' -> refused r.
Proof. exact cheap_refuses. Qed.
Print Assumptions C75_lower_fees_refuse_less.
(** C75: lower fees only avoid the panics about a negative wallet and about a fill at a price that is not positive ... *)
Theorem C75_lower_fees_panics : forall c maker taker gift ops e outs e' outs' o w,
  valid_config c -> cheaper maker taker gift c -> history c ops e outs -> ~ Exists refused outs ->
  history (repriced maker taker gift c) ops e' outs' -> step c e o = Panic w ->
  In w avoided \/ step (repriced maker taker gift c) e' o = Panic w.
Proof. exact cheap_panic. Qed.
Print Assumptions C75_lower_fees_panics.
(** ... and panic only where the higher fees panic too or refuse the order. *)
Theorem C75_lower_fees_new_panics : forall c maker taker gift ops e outs e' outs' o w,
  valid_config c -> cheaper maker taker gift c -> history c ops e outs -> ~ Exists refused outs ->
  history (repriced maker taker gift c) ops e' outs' -> step (repriced maker taker gift c) e' o = Panic w ->
  (exists w', step c e o = Panic w') \/ exists e1 r, step c e o = Done (e1, r) /\ refused r.
Proof. exact cheap_new_panic. Qed.
Print Assumptions C75_lower_fees_new_panics.
(** C75: without the condition on refusals lower fees can cost money: they let a losing order through. *)
Theorem C75_refusals_matter_refuted :
  ~ (forall c maker taker gift ops e outs e' outs',
       valid_config c -> cheaper maker taker gift c -> history c ops e outs -> history (repriced maker taker gift c) ops e' outs' ->
       wealth_of e <= wealth_of e').
Proof. exact refusals_matter. Qed.
Print Assumptions C75_refusals_matter_refuted.

(** The demo history with its fees, with lower fees and with rebates. *)
Example C75_case :
  valid_config (demo_cfg Linear true) /\ cheaper 1 3 0 (demo_cfg Linear true) /\ cheaper (-2) (-6) (d 5) (demo_cfg Linear true) /\
  map (fun c => match play c demo_ops with
                | Done (e, rs) => (forallb not_refused rs, wallet_of e, fees_paid e)
                | Panic _ => (false, 0, 0)
                end)
    [demo_cfg Linear true; repriced 1 3 0 (demo_cfg Linear true); repriced (-2) (-6) (d 5) (demo_cfg Linear true)] =
  [(true, 7825222, 4778); (true, 7827611, 2389); (true, 7880000, 0)] /\
  match play (demo_cfg Linear true) demo_ops, play (repriced 1 3 0 (demo_cfg Linear true)) demo_ops with
  | Done (_, rs), Done (_, rs') => rs' = rs
  | _, _ => False
  end.
Proof.
  split; [apply demo_valid; cbn; lia || auto|]. split; [unfold cheaper; cbn; lia|]. split; [unfold cheaper, d; cbn; lia|]. vm_compute. repeat split.
Qed.
