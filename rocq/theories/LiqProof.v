(** Liquidation, quotes and market state. *)
From Coq Require Import Permutation.
From Verif Require Import ProofBase BookLemmas StepLemmas FillLemmas OpLemmas Inv Spec SpecBook SpecRules SpecConfig SpecMarket SpecPanic
  LedgerProof FeeProof FilterProof MarginProof BookProof OrderProof CoreProof SoundProof PanicProof PanicCor MarketProof.

Definition entry_ok (pos : position) : Prop := 0 <= position_entry_price pos.

Lemma entry_nonneg c e : 0 < c_scale c -> 0 <= c_max c <= 10000 -> reachable c e -> entry_ok (ex_pos e).
Proof.
  intros Hs Hm R. revert e R. apply (reachable_core c (fun _ pos => entry_ok pos)).
  - intros acc q p sd rate pos pos' acc' Hq Hp _ Hok Hcp H. unfold entry_ok in *.
    destruct Hcp; destruct sd; cbn in *; try lia; apply average_nonneg; lia.
  - intros acc pos n _ H. auto.
  - exact Hm.
  - intros e0 H. apply init_fields in H as (_ & _ & _ & _ & Hp & _). rewrite Hp. cbv. discriminate.
Qed.

(** The state in which the margin of the position is checked during an update. *)
Lemma quoted c e ru u :
  build_update (c_dbg c) ru = Done u ->
  ms_bid (ex_ms (pre_check c e u)) = fst (quote_after ru (ex_ms e)) /\
  ms_ask (ex_ms (pre_check c e u)) = snd (quote_after ru (ex_ms e)) /\
  ms_ts (ex_ms (pre_check c e u)) = time_of ru /\ ms_step (ex_ms (pre_check c e u)) = ms_step (ex_ms e) + 1.
Proof.
  intros Hb. destruct (pre_check_fields c e u) as (_ & _ & _ & _ & _ & _ & -> & _). cbn.
  destruct (quote_of_update _ _ _ (ex_ms e) Hb) as [-> ->]. rewrite (time_of_update _ _ _ Hb). auto.
Qed.

Lemma maintenance_due c e ru u :
  valid_config c -> reachable c e -> build_update (c_dbg c) ru = Done u ->
  check_maintenance_margin c (ms_bid (ex_ms (pre_check c e u))) (ms_ask (ex_ms (pre_check c e u))) (ex_pos e) = Err Liquidate /\
    due_after c e ru \/
  check_maintenance_margin c (ms_bid (ex_ms (pre_check c e u))) (ms_ask (ex_ms (pre_check c e u))) (ex_pos e) = Ok tt /\
    ~ due_after c e ru.
Proof.
  intros V R Hb. destruct (quoted c e ru u Hb) as (-> & -> & _). unfold due_after.
  pose proof (entry_nonneg c e (vc_scale _ V) (vc_max _ V) R) as He.
  pose proof (due_check c (ex_pos e) (fst (quote_after ru (ex_ms e))) (snd (quote_after ru (ex_ms e))) (vc_scale _ V)
    ltac:(pose proof (vc_mm _ V); pose proof (vc_imr _ V); lia) He) as D.
  destruct (check_maintenance_margin _ _ _ _) as [[]|err] eqn:E.
  - right. split; [reflexivity|]. intros Hd. apply D in Hd as [? Hd]. discriminate.
  - left. pose proof (maintenance_err _ _ _ _ _ E); subst err. split; [reflexivity|]. apply D. eauto.
Qed.

(** ** C21 *)
Lemma liquidation_exact c e ru e' r :
  valid_config c -> reachable c e -> step c e (OpUpdate ru) = Done (e', r) ->
  (due_after c e ru -> r = Err (ERisk Liquidate) /\ ex_pos e' = Neutral /\ ex_active e' = ex_active e /\
     statement_of e' = apply_fill (c_kind c) (c_scale c) (statement_of e) (closing_fill c e ru) /\
     0 < f_price (closing_fill c e ru) /\ order_margin_of e' = order_margin_of e) /\
  (~ due_after c e ru -> exists l, r = Ok (OutUpdates l)).
Proof.
  intros V R H. pose proof (reachable_inv _ _ (vc_max _ V) R) as I. cbn [step] in H. apply bind_done in H as [u [Hu H]].
  apply map_out_done in H as (rr & H & Hr). apply update_state_spec in H as [_ H]. cbv zeta in H.
  destruct (maintenance_due c e ru u V R Hu) as [[E D]|[E D]]; rewrite E in H; destruct H as [-> H]; subst r; cbn [map_result].
  - split; [intros _ | contradiction]. split; [reflexivity|].
    destruct (pre_check_fields c e u) as (E1 & E2 & E3 & _). destruct (quoted c e ru u Hu) as (Q1 & Q2 & _).
    apply liquidate_spec in H as (o & M & _ & Ho). pose proof (inv_pos _ _ I) as Hpo.
    pose proof (me_cp _ _ _ _ M) as Hcp. rewrite E1, E2 in Hcp. rewrite E2 in Ho.
    assert (Hq : nm_qty o = Z.abs (position_quantity (ex_pos e)) /\ nm_side o = closing_side (ex_pos e)).
    { destruct (ex_pos e); [contradiction| |]; destruct Ho as [-> ->]; cbn in *; split; try reflexivity; lia. }
    destruct Hq as [Hq Hsd].
    assert (Hpr : quote_price (ex_ms (pre_check c e u)) (nm_side o) = f_price (closing_fill c e ru)).
    { unfold closing_fill, quote_price. cbn. rewrite Q1, Q2, Hsd. destruct (ex_pos e); reflexivity. }
    split; [|split; [|split; [|split]]].
    + pose proof (cp_qty _ _ _ _ _ _ _ _ _ Hcp) as Hn. pose proof (cp_pos_ok _ _ _ _ _ _ _ _ _ Hcp Hpo) as Hpo'.
      rewrite Hq, Hsd in Hn. destruct (ex_pos e); [contradiction| |]; destruct (ex_pos e'); cbn in *; try reflexivity; lia.
    + rewrite (me_active _ _ _ _ M). exact E3.
    + rewrite !statement_abs. rewrite (cp_ledger _ _ _ _ _ _ _ _ _ _ Hpo eq_refl Hcp). f_equal.
      rewrite Hpr, Hq, Hsd. reflexivity.
    + rewrite <- Hpr. apply (me_price _ _ _ _ M).
    + unfold order_margin_of. cbn. change (bal (ex_acc e') ORDER_MARGIN = bal (ex_acc e) ORDER_MARGIN). apply (cp_om _ _ _ _ _ _ _ _ _ Hcp).
  - split; [contradiction|]. intros _. eauto.
Qed.

(** ** C08, C09, C35 *)
Lemma update_exact c e ru e' l :
  valid_config c -> reachable c e -> step c e (OpUpdate ru) = Done (e', Ok (OutUpdates l)) ->
  l = reports (c_scale c) ru (ex_active e) /\
  Permutation (ex_active e') (apply_updates l (ex_active e)) /\
  statement_of e' = fold_left (apply_fill (c_kind c) (c_scale c)) (caused c ru (ex_active e)) (statement_of e) /\
  (forall o q, In o (ex_active e) -> touched ru o = Some q -> 0 < q <= lo_rem o).
Proof.
  intros V R H. pose proof (updates_exact _ _ _ _ _ (vc_max _ V) R H) as (_ & _ & Hp & _).
  pose proof (reachable_inv _ _ (vc_max _ V) R) as I. cbn [step] in H. apply bind_done in H as [u [Hu H]].
  apply map_out_done in H as (rr & H & Hr). apply update_state_spec in H as [_ H]. cbv zeta in H.
  destruct (check_maintenance_margin _ _ _ _); destruct H as [-> H]; [|discriminate]. cbn [map_result] in Hr. injection Hr as ->.
  destruct (check_active_effect _ _ _ _ _ (pre_check_inv c e u I) Hu H) as (C1 & C2 & C3 & _).
  destruct (pre_check_fields c e u) as (E1 & E2 & E3 & _). rewrite E3 in *.
  split; [exact C1|]. split; [exact Hp|]. split; [|exact C3].
  rewrite C2. f_equal. rewrite !statement_abs, E1, E2. reflexivity.
Qed.

Lemma quote_inert c e b e' r :
  step c e (OpUpdate (RBba b)) = Done (e', r) ->
  ex_active e' = ex_active e /\
  ((r = Ok (OutUpdates []) /\ ex_acc e' = ex_acc e /\ ex_pos e' = ex_pos e) \/ r = Err (ERisk Liquidate)).
Proof.
  intros H. cbn [step build_update bind] in H. apply map_out_done in H as (rr & H & Hr). apply update_state_spec in H as [_ H]. cbv zeta in H.
  destruct (pre_check_fields c e (UBba b)) as (E1 & E2 & E3 & _).
  destruct (check_maintenance_margin _ _ _ _) eqn:E; destruct H as [-> H]; subst r; cbn [map_result].
  - apply check_active_spec in H as [(_ & ->)|(Hc & _)]; [|discriminate]. cbn. auto.
  - apply liquidate_spec in H as (o & M & _). rewrite (me_active _ _ _ _ M). split; [exact E3|]. right.
    rewrite (maintenance_err _ _ _ _ _ E). reflexivity.
Qed.

Lemma step_market c e o e' r :
  0 <= c_max c <= 10000 -> Inv c e -> step c e o = Done (e', r) ->
  match o with
  | OpUpdate ru => ms_bid (ex_ms e') = fst (quote_after ru (ex_ms e)) /\ ms_ask (ex_ms e') = snd (quote_after ru (ex_ms e)) /\
                   ms_ts (ex_ms e') = time_of ru /\ ms_step (ex_ms e') = ms_step (ex_ms e) + 1
  | _ => ex_ms e' = ex_ms e
  end.
Proof.
  intros Hm I H. destruct o as [ru|sd q uid|sd p q uid|b|id sd p q uid|ru]; cbn [step] in H.
  - apply bind_done in H as [u [Hu H]]. apply map_out_done in H as (rr & H & _). apply update_state_spec in H as [_ H]. cbv zeta in H.
    assert (E : ex_ms e' = ex_ms (pre_check c e u)).
    { destruct (check_maintenance_margin _ _ _ _); destruct H as [_ H].
      - apply (check_active_effect _ _ _ _ _ (pre_check_inv c e u I) Hu H).
      - apply liquidate_spec in H as (o & M & _). apply (me_ms _ _ _ _ M). }
    rewrite E. apply quoted. exact Hu.
  - destruct (market_new sd q uid); [|inv; reflexivity]. apply map_out_done in H as (rr & H & _). apply submit_market_spec in H.
    destruct rr; [destruct H as [_ M]; apply (me_ms _ _ _ _ M)|]. destruct H as ((-> & _) & _). reflexivity.
  - destruct (limit_new sd p q uid) eqn:E; [|inv; reflexivity]. apply map_out_done in H as (rr & H & _). apply limit_new_ok in E as [N _].
    destruct (submit_limit_book _ _ _ _ _ (proj2 Hm) I N H) as [_ [(err & _ & Hs & Hn)|(_ & Hact & Hn & Hms & _)]]; [apply Hs | exact Hms].
  - apply map_out_done in H as (rr & H & _). apply cancel_spec in H as [_ H]. destruct rr; [apply (ce_ms _ _ _ _ _ H)|].
    destruct H as (-> & _). reflexivity.
  - destruct (limit_new sd p q uid) eqn:El; [|inv; reflexivity]. apply map_out_done in H as (rr & H & _). apply amend_spec in H.
    apply limit_new_ok in El as [N _]. destruct (get_by_id (ex_active e) id); [|destruct H as [-> _]; reflexivity]. destruct H as [_ H].
    destruct (_ <=? 0).
    + destruct H as [[x H] _]. apply (ce_ms _ _ _ _ _ H).
    + destruct H as (e1 & x & Hc & H). rewrite <- (ce_ms _ _ _ _ _ Hc). apply submit_limit_spec in H as [(err & _ & Hs & _) | (_ & _ & _ & _ & ra & Ha & _)]; [apply Hs|].
      apply append_spec in Ha. destruct ra as [[]|]; [apply (ae_ms _ _ _ _ Ha)|]. destruct Ha as [_ [(-> & _)|(om' & r' & _ & -> & _)]]; reflexivity.
  - apply bind_done in H as [u [Hu H]]. apply bind_done in H as [e1 [H Hr]]. injection Hr as <- <-.
    apply (check_active_effect _ _ _ _ _ I Hu H).
Qed.

Lemma market_mirrors c ops e outs :
  0 <= c_max c <= 10000 -> history c ops e outs ->
  ms_bid (ex_ms e) = fst (last_quote ops) /\ ms_ask (ex_ms e) = snd (last_quote ops) /\
  ms_ts (ex_ms e) = last_time ops /\ ms_step (ex_ms e) = count_updates ops.
Proof.
  intros Hm H. revert ops e outs H. apply (history_ind c (fun e ops _ =>
    ms_bid (ex_ms e) = fst (last_quote ops) /\ ms_ask (ex_ms e) = snd (last_quote ops) /\
    ms_ts (ex_ms e) = last_time ops /\ ms_step (ex_ms e) = count_updates ops)).
  - intros e0 H. apply init_fields in H as (_ & Hms & _). rewrite Hms. cbv. auto.
  - intros e ops outs o e' r Hh (H1 & H2 & H3 & H4) Hs.
    pose proof (step_market _ _ _ _ _ Hm (history_inv _ _ _ _ Hm Hh) Hs) as M.
    unfold last_quote, last_time, count_updates in *. rewrite !fold_left_app, filter_app, app_length. cbn [fold_left filter].
    destruct o as [ru| | | | |]; cbn [length]; try (rewrite M; rewrite Nat2Z.inj_add; cbn; repeat split; try assumption; lia).
    destruct M as (-> & -> & -> & ->). unfold quote_after. rewrite Nat2Z.inj_add. cbn [length].
    destruct (quote_of ru) as [[b a]|]; repeat split; try assumption; try lia.
Qed.
