(** Histories of accounts that differ in leverage. *)
From Verif Require Import Base Types Filters Accounting Position OrderBook OrderMargin MarketUpdate Exchange Spec SpecConfig SpecMarket SpecMargin SpecMachine
  Scenario ScenarioPanic SpecGear ScenarioGear.

Lemma purse_valid dbg : valid_config (purse dbg) /\ valid_config (purse2 dbg).
Proof. split; constructor; try discriminate; try reflexivity; vm_compute; split; discriminate. Qed.
Lemma lev_valid : valid_config lev1 /\ valid_config lev2.
Proof. split; [apply demo_valid; [left; reflexivity | reflexivity | lia] | constructor; try discriminate; try reflexivity; vm_compute; split; discriminate]. Qed.

(** Two histories and a next call at the end of both. *)
Lemma both c c' ops (P : exchange -> list (result error out) -> exchange -> list (result error out) -> Prop) :
  match play c ops, play c' ops with Done (e, outs), Done (e', outs') => P e outs e' outs' | _, _ => False end ->
  exists e outs e' outs', history c ops e outs /\ history c' ops e' outs' /\ P e outs e' outs'.
Proof.
  destruct (play c ops) as [[e outs]|] eqn:H1; [|contradiction]. destruct (play c' ops) as [[e' outs']|] eqn:H2; [|contradiction].
  intros HP. exists e, outs, e', outs'. split; [exact (play_history _ _ _ _ H1)|]. split; [exact (play_history _ _ _ _ H2) | exact HP].
Qed.
Lemma refused_more : exists e outs e' outs',
  history (purse false) pieces_ops e outs /\ history (purse2 false) pieces_ops e' outs' /\
  map accepted outs = map accepted outs' /\ same_but_margins e e' /\ reserved_right (purse false) e /\ reserved_right (purse2 false) e' /\
  ex_pos e = Neutral /\ ex_pos e' = Neutral /\ position_margin_of e = 0 /\ position_margin_of e' = 8 /\
  (exists e1 f, step (purse false) e (OpMarket Buy 12 1) = Done (e1, Ok (OutMarket f))) /\
  (exists e1, step (purse2 false) e' (OpMarket Buy 12 1) = Done (e1, Err (ERisk NotEnoughAvailableBalance))).
Proof.
  apply (both _ _ _ (fun e outs e' outs' => _)). vm_compute.
  repeat (split; [reflexivity|]). split; [repeat split|]. repeat (split; [reflexivity|]). split; eexists; try eexists; reflexivity.
Qed.

Lemma upkeep_valid : valid_config upkeep.
Proof. constructor; vm_compute; repeat split; discriminate. Qed.
Lemma kept_later : exists e outs e' outs', history lev1 (shared_ops ++ [quote 159 160 9]) e outs /\ history upkeep (shared_ops ++ [quote 159 160 9]) e' outs' /\
  ct_mm (c_spec lev1) < ct_mm (c_spec upkeep) /\ ct_imr (c_spec lev1) = ct_imr (c_spec upkeep) /\
  nth 8 outs (Ok OutUnit) = Err (ERisk Liquidate) /\ ex_pos e = Neutral /\ nth 8 outs' (Ok OutUnit) = Ok (OutUpdates []) /\ position_quantity (ex_pos e') = - d 2.
Proof. do 4 eexists. split; [apply play_history; vm_compute; reflexivity|]. split; [apply play_history; vm_compute; reflexivity|]. vm_compute. repeat split. Qed.
