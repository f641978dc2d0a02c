(** What every call does to the resting orders and the id counter. *)
From Coq Require Import Permutation.
From Verif Require Import ProofBase BookLemmas StepLemmas FillLemmas OpLemmas Inv.

Definition accepted_by (c : config) (e : exchange) (sd : side) (p q uid : Z) (ord : limit_order) : Prop :=
  ord = limit_into_pending {| nl_uid := uid; nl_side := sd; nl_price := p; nl_rem := q |}
          (ex_next_id e) (ms_ts (ex_ms e)) /\
  0 < p /\ 0 < q /\
  validate_order_quantity (ct_qf (c_spec c)) q = Done (Ok tt) /\
  validate_limit_price (c_scale c) (ct_pf (c_spec c)) p (mid_price (ex_ms e)) = Done (Ok tt) /\
  marketable (ex_ms e) ord = false.

Definition fresh_market (e e' : exchange) (r : result error out) : Prop :=
  match r with
  | Ok (OutMarket m) => fm_id m = ex_next_id e /\ ex_next_id e' = ex_next_id e + 1
  | Ok (OutLimit _) => False
  | Ok (OutUpdates l) => l = []
  | _ => True
  end.

Inductive book_change (c : config) (e : exchange) (e' : exchange) : op -> result error out -> Prop :=
| bc_same o r :
    ex_active e' = ex_active e -> ex_next_id e <= ex_next_id e' <= ex_next_id e + 1 ->
    fresh_market e e' r ->
    (forall id sd p q uid, o = OpAmend id sd p q uid -> (exists err, r = Err err) /\
       (0 < p -> 0 < q -> get_by_id (ex_active e) id = None /\
        r = Err (if id <? ex_next_id e then EOrderNoLongerActive else EOrderIdNotFound id))) ->
    (forall b, o = OpCancel b -> exists err, r = Err err) ->
    (forall m, r = Ok (OutMarket m) -> exists sd q uid, o = OpMarket sd q uid) ->
    (forall l, r = Ok (OutUpdates l) -> exists ru, o = OpUpdate ru) ->
    book_change c e e' o r
| bc_add sd p q uid ord :
    accepted_by c e sd p q uid ord ->
    ex_active e' = ex_active e ++ [ord] -> ex_next_id e' = ex_next_id e + 1 ->
    book_change c e e' (OpLimit sd p q uid) (Ok (OutLimit ord))
| bc_cancel b x :
    find_by (ex_active e) b = Some x -> Permutation (ex_active e) (x :: ex_active e') ->
    ex_next_id e' = ex_next_id e ->
    book_change c e e' (OpCancel b) (Ok (OutLimit x))
| bc_amend_gone id sd p q uid x err :
    0 < p -> 0 < q ->
    get_by_id (ex_active e) id = Some x -> Permutation (ex_active e) (x :: ex_active e') ->
    ex_next_id e <= ex_next_id e' <= ex_next_id e + 1 ->
    (err = EAmendQtyAlreadyFilled <-> q <= lo_filled_qty x) ->
    (forall i, err <> EOrderIdNotFound i) -> err <> EOrderNoLongerActive ->
    book_change c e e' (OpAmend id sd p q uid) (Err err)
| bc_amend id sd p q uid x mid ord e1 :
    0 < p -> 0 < q ->
    get_by_id (ex_active e) id = Some x -> Permutation (ex_active e) (x :: mid) ->
    ex_next_id e1 = ex_next_id e -> ex_ms e1 = ex_ms e ->
    lo_filled_qty x < q ->
    accepted_by c e1 sd p (q - lo_filled_qty x) uid ord ->
    ex_active e' = mid ++ [ord] -> ex_next_id e' = ex_next_id e + 1 ->
    book_change c e e' (OpAmend id sd p q uid) (Ok (OutLimit ord))
| bc_fill u ru o r e0 e1 :
    (o = OpUpdate ru /\ r = Ok (OutUpdates (flat_map (event c u) (ex_active e)))) \/
    (o = OpCheck ru /\ r = Ok OutUnit) ->
    build_update (c_dbg c) ru = Done u -> can_fill u = true ->
    (forall x, In x (ex_active e) -> limit_order_filled (c_dbg c) u x = Done (fillq c u x)) ->
    fills c u e0 (ex_active e) e1 ->
    Permutation (ex_active e') (map (refill c u) (filter (fun x => negb (fully c u x)) (ex_active e))) ->
    ex_next_id e' = ex_next_id e ->
    book_change c e e' o r.

Lemma submit_limit_accept c e o e' r :
  c_max c <= 10000 -> Inv c e -> nl_ok o -> submit_limit_order c e o = Done (e', r) ->
  (exists err, r = Err err /\ ex_active e' = ex_active e /\ ex_next_id e <= ex_next_id e' <= ex_next_id e + 1 /\
     (forall i, err <> EOrderIdNotFound i) /\ err <> EOrderNoLongerActive /\ err <> EAmendQtyAlreadyFilled) \/
  (exists ord, r = Ok ord /\ accepted_by c e (nl_side o) (nl_price o) (nl_rem o) (nl_uid o) ord /\
     ex_active e' = ex_active e ++ [ord] /\ ex_next_id e' = ex_next_id e + 1).
Proof.
  intros Hm HI Hok H. pose proof (submit_limit_book _ _ _ _ _ Hm HI Hok H) as [_ Hb].
  pose proof (submit_limit_spec _ _ _ _ _ H) as Hs. cbv zeta in Hs.
  destruct Hb as [(err & -> & Hc & Hn)|(-> & Ha & Hn & _)].
  - left. exists err. split; [reflexivity|]. destruct Hc as (_ & _ & _ & -> & _). split; [reflexivity|].
    split; [exact Hn|].
    destruct Hs as [(err' & E & _ & _ & Hcase) | (_ & _ & _ & _ & a & Hap & E)].
    + injection E as <-. destruct Hcase as [(oe & -> & _)|(_ & _ & _ & [(re & -> & _)|(-> & _)])];
      repeat split; intros; discriminate.
    + destruct a as [[]|err']; [discriminate|]. injection E as <-.
      apply append_spec in Hap as (-> & _). repeat split; intros; discriminate.
  - right. eexists. split; [reflexivity|]. split; [|split; [exact Ha | exact Hn]].
    destruct Hs as [(err' & E & _) | (Hv & Hp & _ & Hk & _)]; [discriminate|].
    destruct Hok. unfold accepted_by. destruct o; cbn in *. repeat split; assumption.
Qed.

Lemma check_active_book c e u e' :
  Inv c e -> check_active_orders c e u = Done e' ->
  (can_fill u = false /\ e' = set_updates e []) \/
  (can_fill u = true /\
   (forall x, In x (ex_active e) -> limit_order_filled (c_dbg c) u x = Done (fillq c u x)) /\
   ex_updates e' = flat_map (event c u) (ex_active e) /\ ex_next_id e' = ex_next_id e /\
   Permutation (ex_active e') (map (refill c u) (filter (fun x => negb (fully c u x)) (ex_active e))) /\
   exists e0 e1, fills c u e0 (ex_active e) e1).
Proof.
  intros HI H. apply check_active_spec in H as [H | (Hc & e1 & act & _ & Hl & Hf & Hr & -> & _)]; [left; exact H|].
  right. split; [exact Hc|]. split; [exact Hl|].
  destruct (fills_stable _ _ _ _ _ Hf) as (_ & Hn & _ & _ & Hu). cbn [set_updates ex_next_id ex_updates app] in *.
  cbn [set_active ex_updates ex_next_id ex_active]. split; [exact Hu|]. split; [exact Hn|].
  destruct (fills_active_spec _ _ _ _ _ _ Hf (inv_nodup _ _ HI) Hr) as (Hna & _ & Hx).
  split; [|exists (set_updates e []), e1; exact Hf].
  assert (Hnd : forall l, NoDup (ids l) -> NoDup l).
  { intros l Hl'. unfold ids in Hl'. eapply NoDup_map_inv; exact Hl'. }
  apply NoDup_Permutation.
  - apply Hnd, Hna.
  - apply Hnd. unfold ids. rewrite map_map.
    erewrite map_ext; [|intros; apply refill_id].
    pose proof (inv_nodup _ _ HI) as Hn0. unfold ids in Hn0. clear - Hn0.
    induction (ex_active e) as [|a l IH]; cbn; [constructor|].
    inversion Hn0 as [|? ? Hx Hb]; subst. destruct (negb (fully c u a)); cbn; [|auto].
    constructor; [|auto]. intros Hin. apply Hx. apply in_map_iff in Hin as [y [Hy Hin]].
    apply filter_In in Hin as [Hin _]. rewrite <- Hy. apply in_map; exact Hin.
  - intros x. rewrite Hx, in_map_iff. split.
    + intros (o & Ho & E & ->). exists o. split; [reflexivity|]. apply filter_In. rewrite E. auto.
    + intros (o & <- & Hin). apply filter_In in Hin as [Hin E]. exists o. split; [exact Hin|].
      split; [destruct (fully c u o); [discriminate|reflexivity] | reflexivity].
Qed.

Lemma step_book c e o e' r :
  c_max c <= 10000 -> Inv c e -> step c e o = Done (e', r) -> book_change c e e' o r.
Proof.
  intros Hm HI. destruct o as [ru|sd q uid|sd p q uid|b|id sd p q uid|ru]; cbn [step]; intros H.
  - apply bind_done in H as [u [Hu H]]. apply map_out_done in H as (r0 & H & ->).
    apply update_state_spec in H as [_ H]. cbv zeta in H.
    destruct (pre_check_fields c e u) as (_ & _ & Hact & Hom & Hn & _).
    destruct (check_maintenance_margin _ _ _ _) as [[]|err].
    + destruct H as [-> H]. apply check_active_book in H; [|apply pre_check_inv; exact HI].
      rewrite Hact, Hn in H.
      destruct H as [(_ & ->) | (Hcf & Hl & Hup & Hn' & Hp & e0 & e1 & Hf)].
      * apply bc_same; cbn; rewrite ?Hact, ?Hn; try lia; try reflexivity; try discriminate.
        intros. eauto.
      * eapply bc_fill; try eassumption. left. cbn [map_result]. rewrite Hup. auto.
    + destruct H as [-> H]. apply liquidate_spec in H as (m & Hme & _).
      apply bc_same; cbn; rewrite ?(me_active _ _ _ _ Hme), ?(me_next _ _ _ _ Hme), ?Hact, ?Hn; try lia; try reflexivity; try discriminate; trivial.
  - destruct (market_new sd q uid) eqn:En.
    2:{ inv. apply bc_same; cbn; try lia; trivial; discriminate. }
    apply map_out_done in H as (r0 & H & ->). apply submit_market_spec in H. destruct r0.
    + destruct H as [-> Hme]. apply bc_same; cbn; rewrite ?(me_active _ _ _ _ Hme), ?(me_next _ _ _ _ Hme); try lia; trivial; try discriminate; eauto.
    + destruct H as (Hs & _ & Hn). destruct Hs as (_ & _ & _ & Ha & _).
      apply bc_same; cbn; trivial; try discriminate.
      destruct Hn as [(? & _ & _ & ->) | (? & _ & -> & _)]; lia.
  - destruct (limit_new sd p q uid) eqn:El.
    2:{ inv. apply bc_same; cbn; try lia; trivial; discriminate. }
    apply limit_new_ok in El as [Hok ->].
    apply map_out_done in H as (r0 & H & ->).
    apply (submit_limit_accept _ _ _ _ _ Hm HI Hok) in H as [(err & -> & Ha & Hn & _)|(ord & -> & Hac & Ha & Hn)].
    + apply bc_same; cbn; trivial; discriminate.
    + cbn in *. econstructor; eassumption.
  - apply map_out_done in H as (r0 & H & ->). apply cancel_spec in H as [_ H]. destruct r0.
    + cbn. apply bc_cancel.
      * apply (remove_with_spec _ _ _ _ (ce_active _ _ _ _ _ H)).
      * apply (remove_with_spec _ _ _ _ (ce_active _ _ _ _ _ H)).
      * apply (ce_next _ _ _ _ _ H).
    + destruct H as (-> & _). apply bc_same; cbn; trivial; try lia; try discriminate. eauto.
  - destruct (limit_new sd p q uid) eqn:El.
    2:{ inv. apply bc_same; cbn; try lia; trivial; try discriminate.
        intros id0 sd0 p0 q0 uid0 E. split; [eauto|]. intros Hp Hq. injection E as -> -> -> -> ->. exfalso.
        unfold limit_new in El. destruct (Z.leb_spec p0 0); [lia|]. destruct (Z.leb_spec q0 0); [lia|]. discriminate. }
    apply limit_new_ok in El as [Hok ->]. destruct Hok as [Hp Hq]. cbn in Hp, Hq.
    apply map_out_done in H as (r0 & H & ->). apply amend_spec in H. cbn [nl_rem nl_uid nl_side nl_price] in H.
    destruct (get_by_id (ex_active e) id) as [x|] eqn:Eg.
    + destruct H as [_ H].
      destruct (Z.leb_spec (lo_rem x + (q - (lo_rem x + lo_filled_qty x))) 0).
      * destruct H as [[y Hy] ->]. cbn.
        destruct (remove_with_spec _ _ _ _ (ce_active _ _ _ _ _ Hy)) as (Hfy & _ & Hpy).
        cbn in Hfy. rewrite Eg in Hfy. injection Hfy as <-.
        eapply bc_amend_gone; try eassumption; try discriminate; rewrite ?(ce_next _ _ _ _ _ Hy); try lia.
        split; intros; [lia | reflexivity].
      * destruct H as (e1 & y & Hy & Hs).
        destruct (remove_with_spec _ _ _ _ (ce_active _ _ _ _ _ Hy)) as (Hfy & _ & Hpy).
        cbn in Hfy. rewrite Eg in Hfy. injection Hfy as <-.
        pose proof (cancel_effect_inv _ _ _ _ _ HI Hy) as HI1.
        assert (Hok1 : nl_ok {| nl_uid := uid; nl_side := sd; nl_price := p;
                                nl_rem := lo_rem x + (q - (lo_rem x + lo_filled_qty x)) |}) by (split; cbn; lia).
        pose proof (submit_limit_accept _ _ _ _ _ Hm HI1 Hok1 Hs) as Hacc.
        pose proof (ce_next _ _ _ _ _ Hy) as Hn1.
        destruct Hacc as [(err & -> & Ha & Hn & Hne1 & Hne2 & Hne3)|(ord & -> & Hac & Ha & Hn)]; cbn.
        -- eapply bc_amend_gone; try eassumption; rewrite ?Ha; try assumption; try lia.
           split; intros; [contradiction | lia].
        -- cbn [nl_side nl_price nl_rem nl_uid] in Hac.
           replace (lo_rem x + (q - (lo_rem x + lo_filled_qty x))) with (q - lo_filled_qty x) in Hac by lia.
           eapply bc_amend with (e1 := e1); try eassumption; try lia. apply (ce_ms _ _ _ _ _ Hy).
    + destruct H as [-> ->]. apply bc_same; cbn; trivial; try lia; try discriminate.
      intros id0 sd0 p0 q0 uid0 E. injection E as -> -> -> -> ->. split; [eauto | auto].
  - apply bind_done in H as [u [Hu H]]. apply bind_done in H as [e1 [H H1]]. inv.
    apply check_active_book in H; [|exact HI].
    destruct H as [(_ & ->) | (Hcf & Hl & Hup & Hn' & Hp & e0 & e2 & Hf)].
    + apply bc_same; cbn; try lia; trivial; discriminate.
    + eapply bc_fill; try eassumption. right. auto.
Qed.
