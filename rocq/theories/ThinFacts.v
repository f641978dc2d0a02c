(** Thinned histories. *)
From Verif Require Import Base Types Filters Accounting Position OrderBook OrderMargin MarketUpdate Tracker Exchange Spec SpecConfig SpecMarket SpecMargin SpecMachine SpecCrash
  Scenario ScenarioPanic SpecThin ThinProof ScenarioThin.

Lemma thick_valid : valid_config thick_cfg.
Proof. apply demo_valid; [left; reflexivity | reflexivity | lia]. Qed.

Lemma thinned c before us ru after e o1 mid o2 : valid_config c ->
  history c (before ++ map OpUpdate us ++ OpUpdate ru :: after) e (o1 ++ mid ++ o2) -> length o1 = length before -> length mid = length us ->
  Forall nothing mid -> replaces ru us ->
  exists e', history c (before ++ OpUpdate ru :: after) e' (o1 ++ o2) /\ machine_of e' = machine_of e /\
    (no_check (before ++ OpUpdate ru :: after) -> counts (ex_trk e') = counts (ex_trk e)).
Proof.
  intros V H L1 L2 F P. destruct (thin_history c before us ru after e _ o1 mid o2 V H eq_refl L1 L2 F P) as (e' & H' & M). exists e'. split; [exact H'|]. split; [exact M|].
  intros N. exact (thin_counts c before us ru after e o1 mid o2 e' V N H L1 L2 F P H').
Qed.

(** From a fresh exchange to a state. *)
Lemma played c ops (P : exchange -> list (result error out) -> Prop) : match play c ops with Done (e, outs) => P e outs | _ => False end ->
  exists e outs, history c ops e outs /\ P e outs.
Proof. destruct (play c ops) as [[e outs]|] eqn:E; [|contradiction]. intros H. exists e, outs. split; [exact (play_history _ _ _ _ E) | exact H]. Qed.
Lemma reached c ops (P : exchange -> Prop) : match play c ops with Done (e, outs) => P e | _ => False end -> exists e, reachable c e /\ P e.
Proof. intros H. destruct (played c ops (fun e _ => P e) H) as (e & outs & Hh & Hp). exists e. split; [exists ops, outs; exact Hh | exact Hp]. Qed.

Lemma needs_quote : exists e e1 ru u rest, reachable thick_cfg e /\ step thick_cfg e (OpUpdate u) = Done (e1, Ok (OutUpdates [])) /\
  quote_of ru = None /\ seen (run thick_cfg e1 (OpUpdate ru :: rest)) <> seen (run thick_cfg e (OpUpdate ru :: rest)).
Proof.
  destruct (reached thick_cfg early (fun e => match step thick_cfg e (OpUpdate (quote_at 102 103 (ten 2))) with
    | Done (e1, r) => r = Ok (OutUpdates []) /\ seen (run thick_cfg e1 [OpUpdate (trade_at Buy 104 (d 1) (ten 3)); OpMarket Sell (d 1) 3]) <>
        seen (run thick_cfg e [OpUpdate (trade_at Buy 104 (d 1) (ten 3)); OpMarket Sell (d 1) 3]) | _ => False end)) as (e & R & H); [vm_compute; split; [reflexivity | discriminate]|].
  destruct (step thick_cfg e (OpUpdate (quote_at 102 103 (ten 2)))) as [[e1 r]|w] eqn:E; [|contradiction]. destruct H as [-> H].
  exists e, e1, (trade_at Buy 104 (d 1) (ten 3)), (quote_at 102 103 (ten 2)), [OpMarket Sell (d 1) 3]. split; [exact R|]. split; [exact E|]. split; [reflexivity | exact H].
Qed.
Lemma candle_twice : exists e e1 l e2, reachable thick_cfg e /\ step thick_cfg e (OpUpdate slump) = Done (e1, Ok (OutUpdates l)) /\
  step thick_cfg e1 (OpUpdate slump) = Done (e2, Err (ERisk Liquidate)).
Proof.
  destruct (reached thick_cfg before_slump (fun e => match step thick_cfg e (OpUpdate slump) with
    | Done (e1, Ok (OutUpdates l)) => match step thick_cfg e1 (OpUpdate slump) with Done (e2, Err (ERisk Liquidate)) => True | _ => False end
    | _ => False end)) as (e & R & H); [vm_compute; exact I|].
  destruct (step thick_cfg e (OpUpdate slump)) as [[e1 [[]|]]|] eqn:E1; try contradiction.
  destruct (step thick_cfg e1 (OpUpdate slump)) as [[e2 [|[|[]| | | | |]]]|] eqn:E2; try contradiction.
  do 4 eexists. split; [exact R|]. split; [exact E1 | exact E2].
Qed.
Lemma other_samples : exists e outs e' outs',
  history thick_cfg (early ++ map OpUpdate dull ++ OpUpdate next_quote :: late) e outs /\ history thick_cfg (early ++ OpUpdate next_quote :: late) e' outs' /\
  Forall nothing (firstn 4 (skipn 3 outs)) /\ machine_of e' = machine_of e /\
  length (tk_samples (ex_trk e)) = 7%nat /\ length (tk_samples (ex_trk e')) = 3%nat.
Proof.
  destruct (played thick_cfg (early ++ map OpUpdate dull ++ OpUpdate next_quote :: late)
    (fun e outs => match play thick_cfg (early ++ OpUpdate next_quote :: late) with
       | Done (e', outs') => Forall nothing (firstn 4 (skipn 3 outs)) /\ machine_of e' = machine_of e /\
           length (tk_samples (ex_trk e)) = 7%nat /\ length (tk_samples (ex_trk e')) = 3%nat
       | _ => False end)) as (e & outs & H & K); [vm_compute; repeat constructor|].
  destruct (play thick_cfg (early ++ OpUpdate next_quote :: late)) as [[e' outs']|] eqn:E; [|contradiction].
  exists e, outs, e', outs'. split; [exact H|]. split; [exact (play_history _ _ _ _ E) | exact K].
Qed.
