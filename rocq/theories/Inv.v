(** Invariants of all histories. *)
From Coq Require Import Permutation.
From Verif Require Import ProofBase BookLemmas StepLemmas FillLemmas OpLemmas.

(** ** Accounts *)
Lemma append_tpath c e o e' r : append_limit_order c e o = Done (e', r) -> tpath (ex_acc e) (ex_acc e').
Proof.
  intros H. apply append_spec in H. destruct r as [[]|err].
  - destruct (ae_acc _ _ _ _ H) as (n & _ & [(_ & ->) | (Hne & -> & _)]); [apply tp_refl|].
    apply tpath_one; [lia | discriminate].
  - destruct H as (_ & [(-> & _) | (om' & r' & _ & -> & _)]); apply tp_refl.
Qed.

Lemma submit_limit_tpath c e o e' r : submit_limit_order c e o = Done (e', r) -> tpath (ex_acc e) (ex_acc e').
Proof.
  intros H. apply submit_limit_spec in H as [(err & _ & Hs & _) | (_ & _ & _ & _ & a & Ha & _)].
  - destruct Hs as (_ & -> & _). apply tp_refl.
  - apply append_tpath in Ha. exact Ha.
Qed.

Lemma cancel_effect_tpath c e e' b o : cancel_effect c e e' b o -> tpath (ex_acc e) (ex_acc e').
Proof.
  intros H. destruct (ce_acc _ _ _ _ _ H) as (n & _ & Hle & ->).
  destruct (Z.ltb_spec n (bal (ex_acc e) ORDER_MARGIN)); [|apply tp_refl].
  apply tpath_one; [lia | discriminate].
Qed.

Lemma cancel_tpath c e b e' r : cancel_limit_order c e b = Done (e', r) -> tpath (ex_acc e) (ex_acc e').
Proof.
  intros H. apply cancel_spec in H as [_ H]. destruct r.
  - eapply cancel_effect_tpath; eassumption.
  - destruct H as [-> _]. apply tp_refl.
Qed.

Lemma amend_tpath c e id o e' r : amend_limit_order c e id o = Done (e', r) -> tpath (ex_acc e) (ex_acc e').
Proof.
  intros H. apply amend_spec in H. destruct (get_by_id (ex_active e) id) as [ex|].
  - destruct H as [_ H]. destruct (_ <=? 0).
    + destruct H as [[x Hx] _]. eapply cancel_effect_tpath; eassumption.
    + destruct H as (e1 & x & Hx & Hs). eapply tpath_trans.
      * eapply cancel_effect_tpath; eassumption.
      * eapply submit_limit_tpath; eassumption.
  - destruct H as [-> _]. apply tp_refl.
Qed.

Lemma market_effect_tpath c e e' o : market_effect c e e' o -> tpath (ex_acc e) (ex_acc e').
Proof. intros H. eapply cp_tpath. apply (me_cp _ _ _ _ H). Qed.

Lemma check_active_tpath c e u e' : check_active_orders c e u = Done e' -> tpath (ex_acc e) (ex_acc e').
Proof.
  intros H. apply check_active_spec in H as [(_ & ->) | (_ & e1 & act & _ & _ & Hf & _ & -> & _)].
  - apply tp_refl.
  - apply fills_tpath in Hf. exact Hf.
Qed.

Lemma update_state_tpath c e u e' r : update_state c e u = Done (e', r) -> tpath (ex_acc e) (ex_acc e').
Proof.
  intros H. apply update_state_spec in H as [_ H]. cbv zeta in H.
  destruct (pre_check_fields c e u) as (Ha & _). rewrite <- Ha.
  destruct (check_maintenance_margin _ _ _ _).
  - destruct H as [_ H]. eapply check_active_tpath; eassumption.
  - destruct H as [_ H]. apply liquidate_spec in H as (o & Hm & _). eapply market_effect_tpath; eassumption.
Qed.

Lemma map_out_done {S E A B} (f : A -> B) (m : outcome (S * result E A)) s r :
  map_out f m = Done (s, r) -> exists r0, m = Done (s, r0) /\ r = map_result f r0.
Proof. unfold map_out; intros H; inv. eauto. Qed.

Lemma step_tpath c e o e' r : step c e o = Done (e', r) -> tpath (ex_acc e) (ex_acc e').
Proof.
  destruct o as [ru|sd q uid|sd p q uid|b|id sd p q uid|ru]; cbn [step]; intros H.
  - apply bind_done in H as [u [_ H]]. apply map_out_done in H as (r0 & H & ->).
    eapply update_state_tpath; eassumption.
  - destruct (market_new sd q uid); [|inv; apply tp_refl].
    apply map_out_done in H as (r0 & H & ->). apply submit_market_spec in H.
    destruct r0; [destruct H as [_ H]; eapply market_effect_tpath; eassumption|].
    destruct H as ((_ & -> & _) & _). apply tp_refl.
  - destruct (limit_new sd p q uid); [|inv; apply tp_refl].
    apply map_out_done in H as (r0 & H & ->). eapply submit_limit_tpath; eassumption.
  - apply map_out_done in H as (r0 & H & ->). eapply cancel_tpath; eassumption.
  - destruct (limit_new sd p q uid); [|inv; apply tp_refl].
    apply map_out_done in H as (r0 & H & ->). eapply amend_tpath; eassumption.
  - apply bind_done in H as [u [_ H]]. apply bind_done in H as [e1 [H H1]]. inv.
    eapply check_active_tpath; eassumption.
Qed.

Lemma run_tpath c ops e e' outs : run c e ops = Done (e', outs) -> tpath (ex_acc e) (ex_acc e').
Proof.
  revert e outs. induction ops as [|o ops IH]; intros e outs H; cbn [run] in H.
  - inv. apply tp_refl.
  - apply bind_done in H as [[e1 r] [H1 H]]. apply bind_done in H as [[e2 rs] [H2 H]]. inv.
    eapply tpath_trans; [eapply step_tpath; eassumption | eapply IH; eassumption].
Qed.

Lemma tpath_sums a b : tpath a b -> debit_sum a = credit_sum a -> debit_sum b = credit_sum b.
Proof.
  induction 1 as [|a b d c amt Hp IH Ha Hne]; intros Hs; [assumption|].
  destruct (transfer_sums b d c amt Hne) as [-> ->]. rewrite IH by assumption. reflexivity.
Qed.

Lemma tpath_mono a b id : tpath a b ->
  ta_debits (get_account a id) <= ta_debits (get_account b id) /\
  ta_credits (get_account a id) <= ta_credits (get_account b id).
Proof.
  induction 1 as [|a b d c amt Hp IH Ha Hne]; [lia|].
  pose proof (transfer_mono b d c amt id Ha). lia.
Qed.

Lemma init_fields c e0 :
  init c = Done e0 ->
  0 < c_start c /\
  ex_ms e0 = market_state_default /\ tracker_new (c_start c) = Done (ex_trk e0) /\ ex_next_id e0 = 0 /\
  ex_pos e0 = Neutral /\ ex_active e0 = [] /\ ex_om e0 = [] /\
  ex_trig e0 = trigger_new (c_sample_s c * 1000000000) /\ ex_updates e0 = [] /\
  ex_acc e0 = {| ac_wallet := {| ta_debits := c_start c; ta_credits := 0 |};
                 ac_om := {| ta_debits := 0; ta_credits := 0 |};
                 ac_pm := {| ta_debits := 0; ta_credits := 0 |};
                 ac_fee := {| ta_debits := 0; ta_credits := 0 |};
                 ac_broker := {| ta_debits := 0; ta_credits := 0 |};
                 ac_treasury := {| ta_debits := 0; ta_credits := c_start c |} |}.
Proof.
  unfold init, exchange_new, accounting_new. intros H. apply bind_done in H as [t [Ht H]].
  assert (0 < c_start c) by (unfold tracker_new in Ht; inv; lia).
  inv. cbn. repeat split; assumption.
Qed.

Lemma run_sums c ops e0 e outs :
  init c = Done e0 -> run c e0 ops = Done (e, outs) -> debit_sum (ex_acc e) = credit_sum (ex_acc e).
Proof.
  intros Hi Hr. apply run_tpath in Hr. eapply tpath_sums; [eassumption|].
  apply init_fields in Hi as (_ & _ & _ & _ & _ & _ & _ & _ & _ & ->). unfold debit_sum, credit_sum. cbn. lia.
Qed.

(** ** The books *)
Definition order_ok (o : limit_order) : Prop :=
  0 < lo_rem o /\ 0 < lo_price o /\
  match lo_filled o with Unfilled => True | FilledQ cum _ => 0 < cum end.

Record Inv (c : config) (e : exchange) : Prop := {
  inv_books : ex_om e = ex_active e;
  inv_nodup : NoDup (ids (ex_active e));
  inv_ids : forall o, In o (ex_active e) -> 0 <= lo_id o < ex_next_id e;
  inv_ok : forall o, In o (ex_active e) -> order_ok o;
  inv_len : Z.of_nat (length (ex_active e)) <= c_max c;
  inv_pos : pos_ok (ex_pos e);
  inv_next : 0 <= ex_next_id e
}.

Lemma init_inv c e0 : 0 <= c_max c -> init c = Done e0 -> Inv c e0.
Proof.
  intros Hm H. apply init_fields in H as (_ & _ & _ & Hn & Hp & Ha & Ho & _).
  constructor; rewrite ?Ha, ?Ho, ?Hp, ?Hn; cbn; try lia; try tauto. constructor.
Qed.

Lemma order_ok_filled o : order_ok o -> 0 <= lo_filled_qty o.
Proof. unfold order_ok, lo_filled_qty; destruct (lo_filled o); lia. Qed.

Lemma inv_fresh c e : Inv c e -> ~ In (ex_next_id e) (ids (ex_active e)).
Proof.
  intros H Hin. unfold ids in Hin. apply in_map_iff in Hin as [o [Ho Hin]].
  pose proof (inv_ids _ _ H o Hin). lia.
Qed.

Lemma same_core_inv c e e' :
  Inv c e -> same_core e e' -> ex_next_id e <= ex_next_id e' -> Inv c e'.
Proof.
  intros [] (Hms & Hacc & Hpos & Hact & Hom & _) Hn.
  constructor; rewrite ?Hact, ?Hom, ?Hpos; try assumption; try lia.
  intros o Ho. specialize (inv_ids0 o Ho). lia.
Qed.

(** Appending a fresh order, book part. *)
Lemma append_inv c e o e' :
  c_max c <= 10000 -> Inv c e -> append_effect c e e' o ->
  ~ In (lo_id o) (ids (ex_active e)) ->
  ex_om e' = ex_active e ++ [o] /\ ex_active e' = ex_active e ++ [o] /\
  Z.of_nat (length (ex_active e)) < c_max c.
Proof.
  intros Hm HI Ha Hf. pose proof (inv_books _ _ HI) as Hb.
  destruct (ae_active _ _ _ _ Ha) as [r Hr]. rewrite book_insert_new in Hr by exact Hf.
  pose proof (ae_om _ _ _ _ Ha) as Ho. apply om_update_done in Ho as [_ [(_ & Ho & Hl)|(old & Hg & _)]].
  - rewrite Hb in *. destruct (Z.leb_spec active_capacity (Z.of_nat (length (ex_active e)))).
    + inv.
    + injection Hr as Hr _. auto.
  - exfalso. rewrite Hb in Hg. apply get_by_id_in in Hg as [Hin He]. apply Hf. rewrite <- He. apply in_map; assumption.
Qed.

Lemma append_err_same c e o e' err :
  c_max c <= 10000 -> Inv c e -> ~ In (lo_id o) (ids (ex_active e)) ->
  append_limit_order c e o = Done (e', Err err) -> e' = e /\ err = EMaxNumberOfActiveOrders /\
  Z.of_nat (length (ex_active e)) = c_max c.
Proof.
  intros Hm HI Hf H. apply append_spec in H. destruct H as (-> & [(-> & Hg & Hl) | (om' & r' & Hom & -> & Hg & Hl)]).
  - split; [destruct e; reflexivity|]. split; [reflexivity|]. rewrite (inv_books _ _ HI) in Hl.
    pose proof (inv_len _ _ HI). lia.
  - exfalso. destruct r'. apply om_update_done in Hom as [_ [(_ & _ & Hl')|(old & Hg' & _)]].
    + rewrite (inv_books _ _ HI) in Hl'. unfold active_capacity in Hl. lia.
    + rewrite (inv_books _ _ HI) in Hg'. congruence.
Qed.

Lemma trk_next_inv c e t : Inv c e -> Inv c (trk_next e t (ex_next_id e + 1)).
Proof.
  intros H. eapply same_core_inv; [exact H | unfold same_core; cbn; tauto | cbn; lia].
Qed.

(** The result of a limit order submission. *)
Definition nl_ok (o : new_limit) : Prop := 0 < nl_price o /\ 0 < nl_rem o.

Lemma submit_limit_book c e o e' r :
  c_max c <= 10000 -> Inv c e -> nl_ok o -> submit_limit_order c e o = Done (e', r) ->
  Inv c e' /\
  ((exists err, r = Err err /\ same_core e e' /\ ex_next_id e <= ex_next_id e' <= ex_next_id e + 1) \/
   (r = Ok (limit_into_pending o (ex_next_id e) (ms_ts (ex_ms e))) /\
    ex_active e' = ex_active e ++ [limit_into_pending o (ex_next_id e) (ms_ts (ex_ms e))] /\
    ex_next_id e' = ex_next_id e + 1 /\ ex_ms e' = ex_ms e /\ ex_pos e' = ex_pos e /\
    Z.of_nat (length (ex_active e)) < c_max c)).
Proof.
  intros Hm HI [Hok1 Hok2] H. apply submit_limit_spec in H as [(err & -> & Hs & Ht & Hcase) | (Hv & Hp & Hr & Hk & a & Ha & ->)].
  - assert (Hn : ex_next_id e <= ex_next_id e' <= ex_next_id e + 1).
    { destruct Hcase as [(oe & _ & -> & _) | (-> & _)]; lia. }
    split; [eapply same_core_inv; [exact HI | exact Hs | lia]|]. left. eauto.
  - set (ord := limit_into_pending o (ex_next_id e) (ms_ts (ex_ms e))) in *.
    pose proof (trk_next_inv c e (log_limit_order_submission (ex_trk e)) HI) as HI1.
    assert (Hf : ~ In (lo_id ord) (ids (ex_active (trk_next e (log_limit_order_submission (ex_trk e)) (ex_next_id e + 1)))))
      by (cbn; apply (inv_fresh _ _ HI)).
    destruct a as [[]|err].
    + apply append_spec in Ha. pose proof (append_inv _ _ _ _ Hm HI1 Ha Hf) as (Hom & Hact & Hl).
      pose proof (ae_next _ _ _ _ Ha) as Hn'. pose proof (ae_pos _ _ _ _ Ha) as Hp'. pose proof (ae_ms _ _ _ _ Ha) as Hms'. cbn [trk_next set_next_id set_trk ex_active ex_pos ex_ms ex_next_id] in *.
      split; [|right; repeat split; congruence].
      constructor.
      * congruence.
      * rewrite Hact, ids_app. apply NoDup_app_single; [apply (inv_nodup _ _ HI) | exact Hf].
      * rewrite Hact, Hn'. intros x Hx. apply in_app_or in Hx as [Hx|[<-|[]]].
        -- pose proof (inv_ids _ _ HI x Hx). lia.
        -- cbn. pose proof (inv_next _ _ HI). lia.
      * rewrite Hact. intros x Hx. apply in_app_or in Hx as [Hx|[<-|[]]]; [apply (inv_ok _ _ HI x Hx)|].
        unfold order_ok. cbn. auto.
      * rewrite Hact, app_length. cbn [length]. lia.
      * rewrite Hp'. apply (inv_pos _ _ HI).
      * rewrite Hn'. pose proof (inv_next _ _ HI). lia.
    + apply (append_err_same _ _ _ _ _ Hm HI1 Hf) in Ha as (-> & -> & _).
      split; [exact HI1|]. left. eexists. split; [reflexivity|]. split; [unfold same_core; cbn; tauto | cbn; lia].
Qed.

Lemma remove_with_spec b by_ o b' :
  remove_with b by_ = Some (o, b') -> find_by b by_ = Some o /\ In o b /\ Permutation b (o :: b').
Proof.
  destruct by_; cbn; intros H.
  - pose proof (remove_by_find _ _ _ _ H). apply remove_by_spec in H as (? & ? & ?). auto.
  - pose proof (remove_by_find _ _ _ _ H). apply remove_by_spec in H as (? & ? & ?). auto.
Qed.

Lemma cancel_effect_inv c e e' by_ o : Inv c e -> cancel_effect c e e' by_ o -> Inv c e'.
Proof.
  intros HI H. destruct (remove_with_spec _ _ _ _ (ce_active _ _ _ _ _ H)) as (_ & Hin & Hp).
  assert (Hsub : forall x, In x (ex_active e') -> In x (ex_active e)).
  { intros x Hx. rewrite Hp. right; assumption. }
  constructor.
  - apply (ce_books _ _ _ _ _ H).
  - assert (Hn : NoDup (ids (o :: ex_active e'))).
    { eapply Permutation_NoDup; [|apply (inv_nodup _ _ HI)]. unfold ids. apply Permutation_map; assumption. }
    inversion Hn; assumption.
  - rewrite (ce_next _ _ _ _ _ H). intros x Hx. apply (inv_ids _ _ HI x (Hsub x Hx)).
  - intros x Hx. apply (inv_ok _ _ HI x (Hsub x Hx)).
  - pose proof (inv_len _ _ HI). apply Permutation_length in Hp. cbn in Hp. lia.
  - rewrite (ce_pos _ _ _ _ _ H). apply (inv_pos _ _ HI).
  - rewrite (ce_next _ _ _ _ _ H). apply (inv_next _ _ HI).
Qed.

Lemma market_effect_inv c e e' o : Inv c e -> market_effect c e e' o -> Inv c e'.
Proof.
  intros [] H. constructor; rewrite ?(me_active _ _ _ _ H), ?(me_om _ _ _ _ H), ?(me_next _ _ _ _ H); try assumption; try lia.
  - intros x Hx. specialize (inv_ids0 x Hx). lia.
  - eapply cp_pos_ok; [apply (me_cp _ _ _ _ H) | assumption].
Qed.

(** After a check the active orders are the surviving refilled orders. *)
Lemma fully_filled_q c u o : fully c u o = true -> fillq c u o = Some (lo_rem o).
Proof. unfold fully. destruct (fillq c u o) as [q|]; [|discriminate]. intros; f_equal; lia. Qed.

Lemma fills_q c u e l e' o q : fills c u e l e' -> In o l -> fillq c u o = Some q -> 0 < q <= lo_rem o.
Proof.
  induction 1 as [|e x l e' Hn Hl IH|e x qx e1 l e' Hq He Hl IH]; cbn [In]; intros Hin Hf.
  - contradiction.
  - destruct Hin as [->|Hin]; [congruence | auto].
  - destruct Hin as [->|Hin]; [|auto]. assert (q = qx) by congruence. subst.
    apply (fe_q _ _ _ _ _ _ He).
Qed.

Lemma fills_active_spec c u e l e' act :
  fills c u e l e' -> NoDup (ids l) ->
  remove_executed (map lo_id (filter (fully c u) l)) (map (refill c u) l) = Done act ->
  NoDup (ids act) /\ (length act <= length l)%nat /\
  (forall x, In x act <-> exists o, In o l /\ fully c u o = false /\ x = refill c u o).
Proof.
  intros Hf Hn Hr.
  assert (Hids : ids (map (refill c u) l) = ids l).
  { unfold ids. rewrite map_map. apply map_ext. intros; apply refill_id. }
  assert (Hn' : NoDup (ids (map (refill c u) l))) by (rewrite Hids; exact Hn).
  destruct (remove_executed_spec _ _ _ Hn' Hr) as [Hna Hx].
  split; [exact Hna|]. split.
  { apply remove_executed_length in Hr. rewrite !map_length in Hr. lia. }
  intros x. rewrite Hx. rewrite in_map_iff. split.
  - intros [[o [<- Ho]] Hni]. exists o. split; [exact Ho|]. split; [|reflexivity].
    destruct (fully c u o) eqn:E; [|reflexivity]. exfalso. apply Hni. rewrite refill_id.
    apply in_map. apply filter_In. auto.
  - intros (o & Ho & E & ->). split; [eauto|]. rewrite refill_id. intros Hin.
    apply in_map_iff in Hin as [o2 [Hid Hin]]. apply filter_In in Hin as [Hin E2].
    assert (o2 = o) by (exact (nodup_ids_inj _ _ _ Hn Hin Ho Hid)). congruence.
Qed.

Lemma refill_ok c u o q :
  order_ok o -> fillq c u o = Some q -> 0 < q <= lo_rem o -> fully c u o = false -> order_ok (refill c u o).
Proof.
  unfold order_ok. intros (Hr & Hp & Hc) Hq Hb Hf. rewrite refill_eq, Hq. rewrite fully_eq, Hq in Hf.
  cbn. split; [lia|]. split; [assumption|]. destruct (lo_filled o); cbn beta iota in *; lia.
Qed.

Lemma check_active_inv c e u e' :
  Inv c e -> check_active_orders c e u = Done e' -> Inv c e'.
Proof.
  intros HI H. apply check_active_spec in H as [(_ & ->) | (_ & e1 & act & _ & _ & Hf & Hr & -> & _)].
  - destruct HI; constructor; assumption.
  - pose proof (fills_book _ _ _ _ _ [] [] Hf) as Hb. cbn [app] in Hb.
    specialize (Hb (inv_nodup _ _ HI) (fun i Hi => match Hi with end)).
    cbn [remove_executed set_updates ex_om] in Hb. rewrite (inv_books _ _ HI) in Hb. specialize (Hb eq_refl).
    destruct (fills_active_spec _ _ _ _ _ _ Hf (inv_nodup _ _ HI) Hr) as (Hna & Hlen & Hx).
    destruct (fills_stable _ _ _ _ _ Hf) as (_ & Hnext & _). cbn [set_updates ex_next_id] in Hnext.
    constructor; cbn [set_active ex_om ex_active ex_next_id ex_pos].
    + congruence.
    + exact Hna.
    + intros x Hin. apply Hx in Hin as (o & Ho & _ & ->). rewrite refill_id, Hnext. apply (inv_ids _ _ HI o Ho).
    + intros x Hin. apply Hx in Hin as (o & Ho & E & ->). pose proof (inv_ok _ _ HI o Ho) as Hok.
      destruct (fillq c u o) as [q|] eqn:Eq.
      * eapply refill_ok; eauto. eapply fills_q; eassumption.
      * rewrite refill_eq, Eq. exact Hok.
    + pose proof (inv_len _ _ HI). lia.
    + eapply fills_pos_ok; [exact Hf | apply (inv_pos _ _ HI)].
    + rewrite Hnext. apply (inv_next _ _ HI).
Qed.

Lemma pre_check_inv c e u : Inv c e -> Inv c (pre_check c e u).
Proof.
  intros HI. destruct (pre_check_fields c e u) as (Ha & Hp & Hact & Hom & Hn & _).
  destruct HI. constructor; rewrite ?Hact, ?Hom, ?Hp, ?Hn; assumption.
Qed.

Lemma update_state_inv c e u e' r : Inv c e -> update_state c e u = Done (e', r) -> Inv c e'.
Proof.
  intros HI H. apply update_state_spec in H as [_ H]. cbv zeta in H.
  pose proof (pre_check_inv c e u HI) as HI1.
  destruct (check_maintenance_margin _ _ _ _).
  - destruct H as [_ H]. eapply check_active_inv; eassumption.
  - destruct H as [_ H]. apply liquidate_spec in H as (o & Hm & _). eapply market_effect_inv; eassumption.
Qed.

Lemma limit_new_ok sd p q uid o : limit_new sd p q uid = Ok o ->
  nl_ok o /\ o = {| nl_uid := uid; nl_side := sd; nl_price := p; nl_rem := q |}.
Proof.
  unfold limit_new, nl_ok. destruct (Z.leb_spec p 0); [discriminate|].
  destruct (Z.leb_spec q 0); [discriminate|]. intros E; inv. cbn. auto.
Qed.

Lemma amend_inv c e id o e' r :
  c_max c <= 10000 -> Inv c e -> nl_ok o -> amend_limit_order c e id o = Done (e', r) -> Inv c e'.
Proof.
  intros Hm HI Ho H. apply amend_spec in H. destruct (get_by_id (ex_active e) id) as [ex|].
  - destruct H as [_ H]. destruct (Z.leb_spec (lo_rem ex + (nl_rem o - (lo_rem ex + lo_filled_qty ex))) 0).
    + destruct H as [[x Hx] _]. eapply cancel_effect_inv; eassumption.
    + destruct H as (e1 & x & Hx & Hs). pose proof (cancel_effect_inv _ _ _ _ _ HI Hx) as HI1.
      eapply submit_limit_book in Hs as [HI2 _]; [exact HI2|exact Hm|exact HI1|].
      destruct Ho as [Ho1 Ho2]. split; cbn; lia.
  - destruct H as [-> _]. exact HI.
Qed.

Lemma step_inv c e o e' r : c_max c <= 10000 -> Inv c e -> step c e o = Done (e', r) -> Inv c e'.
Proof.
  intros Hm HI. destruct o as [ru|sd q uid|sd p q uid|b|id sd p q uid|ru]; cbn [step]; intros H.
  - apply bind_done in H as [u [_ H]]. apply map_out_done in H as (r0 & H & ->).
    eapply update_state_inv; eassumption.
  - destruct (market_new sd q uid); [|inv; assumption].
    apply map_out_done in H as (r0 & H & ->). apply submit_market_spec in H.
    destruct r0; [destruct H as [_ H]; eapply market_effect_inv; eassumption|].
    destruct H as (Hs & _ & Hc). eapply same_core_inv; [exact HI | exact Hs|].
    destruct Hc as [(? & _ & _ & ->) | (? & _ & -> & _)]; lia.
  - destruct (limit_new sd p q uid) eqn:El; [|inv; assumption]. apply limit_new_ok in El as [Hok _].
    apply map_out_done in H as (r0 & H & ->). eapply submit_limit_book in H as [HI1 _]; eassumption.
  - apply map_out_done in H as (r0 & H & ->). apply cancel_spec in H as [_ H]. destruct r0.
    + eapply cancel_effect_inv; eassumption.
    + destruct H as [-> _]; assumption.
  - destruct (limit_new sd p q uid) eqn:El; [|inv; assumption]. apply limit_new_ok in El as [Hok _].
    apply map_out_done in H as (r0 & H & ->). eapply amend_inv; eassumption.
  - apply bind_done in H as [u [_ H]]. apply bind_done in H as [e1 [H H1]]. inv.
    eapply check_active_inv; eassumption.
Qed.

Lemma run_inv c ops e e' outs : c_max c <= 10000 -> Inv c e -> run c e ops = Done (e', outs) -> Inv c e'.
Proof.
  intros Hm. revert e outs. induction ops as [|o ops IH]; intros e outs HI H; cbn [run] in H.
  - inv. assumption.
  - apply bind_done in H as [[e1 r] [H1 H]]. apply bind_done in H as [[e2 rs] [H2 H]]. inv.
    eapply IH; [|eassumption]. eapply step_inv; eassumption.
Qed.
