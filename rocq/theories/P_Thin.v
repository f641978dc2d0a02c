(** Property C86: market data of which nothing comes can be left out. *)
From Verif Require Import Base Types Filters Accounting Position OrderBook OrderMargin MarketUpdate Tracker Exchange Spec SpecConfig SpecMarket SpecMargin SpecMachine SpecCrash
  Scenario ScenarioPanic SpecThin ThinProof ScenarioThin ThinFacts.

(** Any number of updates that were accepted and filled nothing can be left out before an update that replaces what they have left:
    the rest of the run gives the same answers, ends in the same state, or panics at the same place. *)
Theorem C86_skip : forall c e us e1 outs ru rest, valid_config c -> reachable c e ->
  run c e (map OpUpdate us) = Done (e1, outs) -> Forall nothing outs -> replaces ru us ->
  seen (run c e1 (OpUpdate ru :: rest)) = seen (run c e (OpUpdate ru :: rest)).
Proof. exact thin_run. Qed.
Print Assumptions C86_skip.

Example C86_skip_case : replaces next_quote dull /\ match play thick_cfg early with
  | Done (e, _) => match run thick_cfg e (map OpUpdate dull) with
    | Done (e1, outs) => outs = [Ok (OutUpdates []); Ok (OutUpdates []); Ok (OutUpdates []); Ok (OutUpdates [])] /\ position_quantity (ex_pos e1) = d 2
    | _ => False end
  | _ => False end.
Proof. split; [left; discriminate | vm_compute; split; reflexivity]. Qed.

(** A whole history without these updates: the other answers, the final state, the counters and the volumes are the same. *)
Theorem C86_history : forall c before us ru after e o1 mid o2, valid_config c ->
  history c (before ++ map OpUpdate us ++ OpUpdate ru :: after) e (o1 ++ mid ++ o2) -> length o1 = length before -> length mid = length us ->
  Forall nothing mid -> replaces ru us ->
  exists e', history c (before ++ OpUpdate ru :: after) e' (o1 ++ o2) /\ machine_of e' = machine_of e /\
    (no_check (before ++ OpUpdate ru :: after) -> counts (ex_trk e') = counts (ex_trk e)).
Proof. exact thinned. Qed.
Print Assumptions C86_history.

(** Four updates left out of a history that ends with a fill and a market order. *)
Example C86_history_case : match play thick_cfg (early ++ map OpUpdate dull ++ OpUpdate next_quote :: late), play thick_cfg (early ++ OpUpdate next_quote :: late) with
  | Done (e, outs), Done (e', outs') => outs' = firstn 3 outs ++ skipn 7 outs /\ machine_of e' = machine_of e /\ counts (ex_trk e') = counts (ex_trk e) /\
      counts (ex_trk e) = [1; 0; 1; 1; 2; 2; d 324; d 420] /\ length outs = 10%nat
  | _, _ => False end.
Proof. vm_compute. auto. Qed.

(** The samples of the account are not the same: they depend on the times of the updates. *)
Theorem C86_samples_refuted : exists e outs e' outs',
  history thick_cfg (early ++ map OpUpdate dull ++ OpUpdate next_quote :: late) e outs /\ history thick_cfg (early ++ OpUpdate next_quote :: late) e' outs' /\
  Forall nothing (firstn 4 (skipn 3 outs)) /\ machine_of e' = machine_of e /\
  length (tk_samples (ex_trk e)) = 7%nat /\ length (tk_samples (ex_trk e')) = 3%nat.
Proof. exact other_samples. Qed.
Print Assumptions C86_samples_refuted.

(** Before an update without a quote a quote cannot be left out. *)
Theorem C86_trade_refuted : exists e e1 ru u rest, reachable thick_cfg e /\ step thick_cfg e (OpUpdate u) = Done (e1, Ok (OutUpdates [])) /\
  quote_of ru = None /\ seen (run thick_cfg e1 (OpUpdate ru :: rest)) <> seen (run thick_cfg e (OpUpdate ru :: rest)).
Proof. exact needs_quote. Qed.
Print Assumptions C86_trade_refuted.

(** The same quote again is accepted, fills nothing, liquidates nothing and changes nothing, also if the first one liquidated. *)
Theorem C86_repeat : forall c e b e1 r, valid_config c -> reachable c e -> step c e (OpUpdate (RBba b)) = Done (e1, r) ->
  exists e2, step c e1 (OpUpdate (RBba b)) = Done (e2, Ok (OutUpdates [])) /\ machine_of e2 = machine_of e1.
Proof. exact repeat_quote. Qed.
Print Assumptions C86_repeat.

Example C86_repeat_case : match play thick_cfg (early ++ [quote 40 41 2; quote 40 41 2]) with
  | Done (e, outs) => skipn 3 outs = [Err (ERisk Liquidate); Ok (OutUpdates [])] /\ ex_pos e = Neutral
  | _ => False end.
Proof. vm_compute. auto. Qed.

(** Not so a candle: the liquidation check comes before the fills, so the position opened by a candle is only liquidated
    when the same candle comes again. *)
Theorem C86_candle_refuted : exists e e1 l e2, reachable thick_cfg e /\ step thick_cfg e (OpUpdate slump) = Done (e1, Ok (OutUpdates l)) /\
  step thick_cfg e1 (OpUpdate slump) = Done (e2, Err (ERisk Liquidate)).
Proof. exact candle_twice. Qed.
Print Assumptions C86_candle_refuted.
