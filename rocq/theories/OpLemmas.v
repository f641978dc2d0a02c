(** Characterisation of the public operations. *)
From Coq Require Import Permutation.
From Verif Require Import ProofBase BookLemmas StepLemmas FillLemmas.

(** Everything but the tracker and the id counter is unchanged. *)
Definition same_core (e e' : exchange) : Prop :=
  ex_ms e' = ex_ms e /\ ex_acc e' = ex_acc e /\ ex_pos e' = ex_pos e /\ ex_active e' = ex_active e /\
  ex_om e' = ex_om e /\ ex_trig e' = ex_trig e /\ ex_updates e' = ex_updates e.

Lemma same_core_refl e : same_core e e.
Proof. unfold same_core; tauto. Qed.

(** ** Market orders *)
Definition quote_price (m : market_state) (sd : side) : Z :=
  match sd with Buy => ms_ask m | Sell => ms_bid m end.

Definition trk_market (c : config) (t : tracker) (sd : side) (p q : Z) : tracker :=
  let t1 := log_market_order_fill t in
  let v := conv (c_kind c) (c_scale c) q p in
  match sd with Buy => tracker_add t1 0 0 0 0 0 0 v 0 | Sell => tracker_add t1 0 0 0 0 0 0 0 v end.

Record market_effect (c : config) (e e' : exchange) (o : new_market) : Prop := {
  me_qty : 0 < nm_qty o;
  me_price : 0 < quote_price (ex_ms e) (nm_side o);
  me_cp : cp_case c (ex_acc e) (nm_qty o) (quote_price (ex_ms e) (nm_side o)) (nm_side o)
            (fee_of c (nm_qty o) (quote_price (ex_ms e) (nm_side o)) (ct_taker (c_spec c)))
            (ex_pos e) (ex_pos e') (ex_acc e');
  me_ms : ex_ms e' = ex_ms e;
  me_active : ex_active e' = ex_active e;
  me_om : ex_om e' = ex_om e;
  me_trig : ex_trig e' = ex_trig e;
  me_updates : ex_updates e' = ex_updates e;
  me_next : ex_next_id e' = ex_next_id e + 1;
  me_trk : ex_trk e' = trk_market c (log_market_order_submission (ex_trk e)) (nm_side o)
             (quote_price (ex_ms e) (nm_side o)) (nm_qty o);
  me_risk : check_market_order c (ex_pos e) (bal (ex_acc e) POSITION_MARGIN) (nm_side o) (nm_qty o)
             (quote_price (ex_ms e) (nm_side o)) (bal (ex_acc e) WALLET) = Done (Ok tt);
  me_valid : validate_order_quantity (ct_qf (c_spec c)) (nm_qty o) = Done (Ok tt)
}.

Lemma submit_market_spec c e o e' r :
  submit_market_order c e o = Done (e', r) ->
  match r with
  | Err err =>
      same_core e e' /\ ex_trk e' = log_market_order_submission (ex_trk e) /\
      ((exists oe, err = EOrder oe /\ validate_order_quantity (ct_qf (c_spec c)) (nm_qty o) = Done (Err oe) /\
                   ex_next_id e' = ex_next_id e) \/
       (exists re, err = ERisk re /\ ex_next_id e' = ex_next_id e + 1 /\
         validate_order_quantity (ct_qf (c_spec c)) (nm_qty o) = Done (Ok tt) /\
         check_market_order c (ex_pos e) (bal (ex_acc e) POSITION_MARGIN) (nm_side o) (nm_qty o)
             (quote_price (ex_ms e) (nm_side o)) (bal (ex_acc e) WALLET) = Done (Err re)))
  | Ok f =>
      f = market_into_filled o (ex_next_id e) (ms_ts (ex_ms e)) (quote_price (ex_ms e) (nm_side o)) (ms_ts (ex_ms e)) /\
      market_effect c e e' o
  end.
Proof.
  unfold submit_market_order. intros H. apply bind_done in H as [v [Hv H]].
  destruct v as [[]|oe].
  2:{ inv. split; [unfold same_core; cbn; tauto|]. split; [reflexivity|]. left. eauto. }
  apply bind_done in H as [rr [Hr H]]. cbn [set_next_id set_trk ex_pos ex_acc ex_ms ex_next_id ex_trk] in *.
  fold (quote_price (ex_ms e) (nm_side o)) in *.
  fold (bal (ex_acc e) POSITION_MARGIN) in Hr. fold (bal (ex_acc e) WALLET) in Hr.
  destruct rr as [[]|re].
  2:{ inv. split; [unfold same_core; cbn; tauto|]. split; [reflexivity|]. right. exists re. cbn. auto. }
  apply bind_done in H as [e3 [Hs H]]. inv. split; [reflexivity|].
  unfold settle_filled_market_order in Hs. cbn [market_into_filled fm_qty fm_avg fm_side set_next_id set_trk ex_pos ex_acc ex_trk] in Hs.
  inv. tr. repeat match goal with H : change_position _ _ _ _ _ _ _ = Done _ |- _ => apply change_position_cases in H | H : log_trade _ _ _ _ _ = Done _ |- _ => apply log_trade_done in H end. subst.
  constructor; cbn; try reflexivity; try assumption; try lia.
Qed.

(** ** Limit orders *)
Record append_effect (c : config) (e e' : exchange) (o : limit_order) : Prop := {
  ae_om : om_update (c_max c) (ex_om e) o = Done (ex_om e', Ok tt);
  ae_active : exists r, book_insert active_capacity (ex_active e) o = (ex_active e', Ok r);
  ae_ms : ex_ms e' = ex_ms e;
  ae_pos : ex_pos e' = ex_pos e;
  ae_trig : ex_trig e' = ex_trig e;
  ae_updates : ex_updates e' = ex_updates e;
  ae_next : ex_next_id e' = ex_next_id e;
  ae_trk : ex_trk e' = ex_trk e;
  ae_acc : exists new_om, order_margin c (ex_om e') (ex_pos e) = Done new_om /\
    ((new_om = bal (ex_acc e) ORDER_MARGIN /\ ex_acc e' = ex_acc e) \/
     (new_om <> bal (ex_acc e) ORDER_MARGIN /\
      ex_acc e' = transfer_pure (ex_acc e) ORDER_MARGIN WALLET (Z.abs (new_om - bal (ex_acc e) ORDER_MARGIN)) /\
      0 <= bal (ex_acc e') WALLET /\ ex_om e' = ex_active e' /\
      (ex_active e' = [] -> bal (ex_acc e') ORDER_MARGIN = 0)))
}.

Lemma append_spec c e o e' r :
  append_limit_order c e o = Done (e', r) ->
  match r with
  | Ok _ => append_effect c e e' o
  | Err err => err = EMaxNumberOfActiveOrders /\
      ((e' = set_om e (ex_om e) /\ get_by_id (ex_om e) (lo_id o) = None /\ c_max c <= Z.of_nat (length (ex_om e))) \/
       (exists om' r', om_update (c_max c) (ex_om e) o = Done (om', Ok r') /\
        e' = set_active (set_om e om') (ex_active e) /\ get_by_id (ex_active e) (lo_id o) = None /\
        active_capacity <= Z.of_nat (length (ex_active e))))
  end.
Proof.
  unfold append_limit_order. intros H. apply bind_done in H as [[om' ro] [Hom H]].
  destruct ro as [[]|err].
  2:{ apply om_update_err in Hom as (-> & -> & Hg & Hc). inv. auto. }
  cbn [set_om ex_active ex_om ex_acc] in H.
  destruct (book_insert active_capacity (ex_active e) o) as [act' [rb|err]] eqn:Eb.
  2:{ inv. unfold book_insert in Eb. destruct (get_by_id (ex_active e) (lo_id o)) eqn:Eg; [inv|].
      destruct (Z.leb_spec active_capacity (Z.of_nat (length (ex_active e)))); inv.
      split; [reflexivity|]. right. exists om', tt. auto. }
  apply bind_done in H as [new_om [Hn H]].
  unfold computed_order_margin in Hn. cbn [set_active set_om ex_om ex_pos ex_acc ex_active] in *.
  fold (bal (ex_acc e) ORDER_MARGIN) in *.
  destruct (Z.compare_spec new_om (bal (ex_acc e) ORDER_MARGIN)) as [He|Hlt|Hgt].
  - inv. constructor; cbn; try reflexivity; eauto.
  - apply bind_done in H as [acc [Ht H]]. apply bind_done in H as [? [H1 H]].
    apply bind_done in H as [? [H2 H]]. apply bind_done in H as [? [H3 H]]. inv. tr.
    cbn [set_acc set_active set_om ex_acc ex_om ex_active] in *. unfold assert_user_wallet_balance in H3. inv.
    apply orders_eqb_eq in H1.
    constructor; cbn; try reflexivity; eauto. exists new_om. split; [assumption|]. right.
    split; [lia|]. replace (Z.abs (new_om - bal (ex_acc e) ORDER_MARGIN)) with (bal (ex_acc e) ORDER_MARGIN - new_om) by lia.
    split; [reflexivity|]. unfold bal at 1. split; [lia|]. split; [assumption|].
    intros ->. fold (bal (transfer_pure (ex_acc e) ORDER_MARGIN WALLET (bal (ex_acc e) ORDER_MARGIN - new_om)) ORDER_MARGIN) in H2. lia.
  - apply bind_done in H as [acc [Ht H]]. apply bind_done in H as [? [H1 H]].
    apply bind_done in H as [? [H2 H]]. apply bind_done in H as [? [H3 H]]. inv. tr.
    cbn [set_acc set_active set_om ex_acc ex_om ex_active] in *. unfold assert_user_wallet_balance in H3. inv.
    apply orders_eqb_eq in H1.
    constructor; cbn; try reflexivity; eauto. exists new_om. split; [assumption|]. right.
    split; [lia|]. replace (Z.abs (new_om - bal (ex_acc e) ORDER_MARGIN)) with (new_om - bal (ex_acc e) ORDER_MARGIN) by lia.
    split; [reflexivity|]. unfold bal at 1. split; [lia|]. split; [assumption|].
    intros ->. fold (bal (transfer_pure (ex_acc e) ORDER_MARGIN WALLET (new_om - bal (ex_acc e) ORDER_MARGIN)) ORDER_MARGIN) in H2. lia.
Qed.

Definition trk_next (e : exchange) (t : tracker) (n : Z) : exchange := set_next_id (set_trk e t) n.

Lemma submit_limit_spec c e o e' r :
  submit_limit_order c e o = Done (e', r) ->
  let t := log_limit_order_submission (ex_trk e) in
  let ord := limit_into_pending o (ex_next_id e) (ms_ts (ex_ms e)) in
  (exists err, r = Err err /\ same_core e e' /\ ex_trk e' = t /\
     ((exists oe, err = EOrder oe /\ ex_next_id e' = ex_next_id e /\
        (validate_order_quantity (ct_qf (c_spec c)) (nl_rem o) = Done (Err oe) \/
         (validate_order_quantity (ct_qf (c_spec c)) (nl_rem o) = Done (Ok tt) /\
          validate_limit_price (c_scale c) (ct_pf (c_spec c)) (nl_price o) (mid_price (ex_ms e)) = Done (Err oe)))) \/
      (ex_next_id e' = ex_next_id e + 1 /\
       validate_order_quantity (ct_qf (c_spec c)) (nl_rem o) = Done (Ok tt) /\
       validate_limit_price (c_scale c) (ct_pf (c_spec c)) (nl_price o) (mid_price (ex_ms e)) = Done (Ok tt) /\
       ((exists re, err = ERisk re /\ check_limit_order c (ex_pos e) ord (bal (ex_acc e) WALLET) (ex_om e) = Done (Err re)) \/
        (err = EOrder GoodTillCrossingRejectedOrder /\ marketable (ex_ms e) ord = true /\
         check_limit_order c (ex_pos e) ord (bal (ex_acc e) WALLET) (ex_om e) = Done (Ok tt)))))) \/
  (validate_order_quantity (ct_qf (c_spec c)) (nl_rem o) = Done (Ok tt) /\
   validate_limit_price (c_scale c) (ct_pf (c_spec c)) (nl_price o) (mid_price (ex_ms e)) = Done (Ok tt) /\
   check_limit_order c (ex_pos e) ord (bal (ex_acc e) WALLET) (ex_om e) = Done (Ok tt) /\
   marketable (ex_ms e) ord = false /\
   exists a, append_limit_order c (trk_next e t (ex_next_id e + 1)) ord = Done (e', a) /\
   r = match a with Ok _ => Ok ord | Err err => Err err end).
Proof.
  unfold submit_limit_order. intros H. cbv zeta. apply bind_done in H as [v [Hv H]].
  destruct v as [[]|oe].
  2:{ inv. left. eexists; split; [reflexivity|]. split; [unfold same_core; cbn; tauto|]. split; [reflexivity|].
      left. exists oe. auto. }
  apply bind_done in H as [p [Hp H]]. cbn [set_trk ex_ms ex_next_id] in *.
  destruct p as [[]|oe].
  2:{ inv. left. eexists; split; [reflexivity|]. split; [unfold same_core; cbn; tauto|]. split; [reflexivity|].
      left. exists oe. auto. }
  apply bind_done in H as [rr [Hr H]]. cbn [set_next_id set_trk ex_ms ex_pos ex_acc ex_om] in *.
  fold (bal (ex_acc e) WALLET) in Hr.
  destruct rr as [[]|re].
  2:{ inv. left. eexists; split; [reflexivity|]. split; [unfold same_core; cbn; tauto|]. split; [reflexivity|].
      right. repeat split; try assumption. left. eauto. }
  destruct (marketable (ex_ms e) (limit_into_pending o (ex_next_id e) (ms_ts (ex_ms e)))) eqn:Em.
  { inv. left. eexists; split; [reflexivity|]. split; [unfold same_core; cbn; tauto|]. split; [reflexivity|].
    right. repeat split; try assumption. right. auto. }
  right. repeat (split; [assumption || reflexivity|]).
  apply bind_done in H as [[e3 a] [Ha H]]. exists a. destruct a; inv; split; auto.
Qed.

(** ** Cancelling *)
Definition find_by (b : list limit_order) (by_ : cancel_by) : option limit_order :=
  match by_ with
  | ByOrderId id => get_by_id b id
  | ByUserOrderId uid => find (fun o => lo_uid o =? uid) b
  end.
Definition remove_with (b : list limit_order) (by_ : cancel_by) :=
  match by_ with
  | ByOrderId id => remove_by_order_id b id
  | ByUserOrderId uid => remove_by_user_order_id b uid
  end.

Record cancel_effect (c : config) (e e' : exchange) (by_ : cancel_by) (o : limit_order) : Prop := {
  ce_active : remove_with (ex_active e) by_ = Some (o, ex_active e');
  ce_om : om_remove (ex_om e) by_ = Done (ex_om e');
  ce_books : ex_om e' = ex_active e';
  ce_ms : ex_ms e' = ex_ms e;
  ce_pos : ex_pos e' = ex_pos e;
  ce_trig : ex_trig e' = ex_trig e;
  ce_updates : ex_updates e' = ex_updates e;
  ce_next : ex_next_id e' = ex_next_id e;
  ce_trk : ex_trk e' = log_limit_order_cancellation (ex_trk e);
  ce_sync : order_margin c (ex_om e) (ex_pos e) = Done (bal (ex_acc e) ORDER_MARGIN);
  ce_acc : exists new_om, order_margin c (ex_om e') (ex_pos e) = Done new_om /\
    new_om <= bal (ex_acc e) ORDER_MARGIN /\
    ex_acc e' = if new_om <? bal (ex_acc e) ORDER_MARGIN
                then transfer_pure (ex_acc e) WALLET ORDER_MARGIN (bal (ex_acc e) ORDER_MARGIN - new_om)
                else ex_acc e
}.

Lemma cancel_spec c e by_ e' r :
  cancel_limit_order c e by_ = Done (e', r) ->
  order_margin c (ex_om e) (ex_pos e) = Done (bal (ex_acc e) ORDER_MARGIN) /\
  match r with
  | Ok o => cancel_effect c e e' by_ o
  | Err err => e' = e /\ remove_with (ex_active e) by_ = None /\
      err = match by_ with
            | ByOrderId id => if id <? ex_next_id e then EOrderNoLongerActive else EOrderIdNotFound id
            | ByUserOrderId _ => EUserOrderIdNotFound
            end
  end.
Proof.
  unfold cancel_limit_order. fold (bal (ex_acc e) ORDER_MARGIN).
  intros H. apply bind_done in H as [comp [Hc H]]. apply bind_done in H as [? [Ha H]].
  unfold computed_order_margin in Hc. apply assert_done in Ha.
  assert (comp = bal (ex_acc e) ORDER_MARGIN) by lia. subst comp.
  split; [assumption|].
  destruct (remove_with (ex_active e) by_) as [[o act']|] eqn:Er.
  2:{ destruct by_; cbn [remove_with] in Er; cbn beta iota in H; rewrite Er in H; inv; auto. }
  assert (H' : (om' <- om_remove (ex_om (set_active e act')) by_ ;;
      new_om <- computed_order_margin c (set_om (set_active e act') om') ;;
      _ <- assert (new_om <=? bal (ex_acc e) ORDER_MARGIN) PCancelMarginGrows ;;
      e3 <- (if new_om <? bal (ex_acc e) ORDER_MARGIN then
               acc <- transfer (c_dbg c) (ex_acc (set_om (set_active e act') om')) WALLET ORDER_MARGIN (bal (ex_acc e) ORDER_MARGIN - new_om) ;;
               Done (set_acc (set_om (set_active e act') om') acc)
             else Done (set_om (set_active e act') om')) ;;
      let e4 := set_trk e3 (log_limit_order_cancellation (ex_trk e3)) in
      _ <- assert (orders_eqb (ex_om e4) (ex_active e4)) PCancelBooks ;;
      _ <- assert (match ex_active e4 with
                   | [] => margin_balance_of (ex_acc e4) ORDER_MARGIN =? 0
                   | _ => true end) PCancelEmptyMargin ;;
      Done (e4, Ok o)) = Done (e', r)) by (destruct by_; cbn [remove_with] in Er; cbn beta iota in H; rewrite Er in H; exact H). clear H. rename H' into H.
  cbn [set_active ex_om] in H.
  apply bind_done in H as [om' [Hom H]]. apply bind_done in H as [new_om [Hn H]].
  apply bind_done in H as [? [Hle H]]. apply bind_done in H as [e3 [He3 H]]. cbv zeta in H.
  apply bind_done in H as [? [Hb H]]. apply bind_done in H as [? [_ H]].
  unfold computed_order_margin in Hn. cbn [set_om set_active ex_om ex_pos ex_acc] in *.
  apply assert_done in Hle. apply assert_done in Hb. apply orders_eqb_eq in Hb.
  cbn [set_trk ex_om ex_active] in Hb.
  assert (Hs : ex_active e3 = act' /\ ex_om e3 = om' /\ ex_ms e3 = ex_ms e /\ ex_pos e3 = ex_pos e /\
    ex_trig e3 = ex_trig e /\ ex_updates e3 = ex_updates e /\ ex_next_id e3 = ex_next_id e /\
    ex_trk e3 = ex_trk e /\
    ex_acc e3 = if new_om <? bal (ex_acc e) ORDER_MARGIN
                then transfer_pure (ex_acc e) WALLET ORDER_MARGIN (bal (ex_acc e) ORDER_MARGIN - new_om)
                else ex_acc e).
  { destruct (new_om <? bal (ex_acc e) ORDER_MARGIN); inv; tr; cbn; tauto. }
  destruct Hs as (? & ? & ? & ? & ? & ? & ? & ? & ?). inv.
  constructor; cbn; try assumption; try congruence.
  - exists new_om. repeat split; try assumption. lia.
Qed.

Lemma amend_spec c e id o e' r :
  amend_limit_order c e id o = Done (e', r) ->
  match get_by_id (ex_active e) id with
  | None => e' = e /\ r = Err (if id <? ex_next_id e then EOrderNoLongerActive else EOrderIdNotFound id)
  | Some ex =>
      let leaves := lo_rem ex + (nl_rem o - (lo_rem ex + lo_filled_qty ex)) in
      0 < lo_rem ex + lo_filled_qty ex /\
      if leaves <=? 0 then
        (exists x, cancel_effect c e e' (ByOrderId id) x) /\ r = Err EAmendQtyAlreadyFilled
      else
        exists e1 x, cancel_effect c e e1 (ByOrderId id) x /\
          submit_limit_order c e1 {| nl_uid := nl_uid o; nl_side := nl_side o; nl_price := nl_price o; nl_rem := leaves |}
          = Done (e', r)
  end.
Proof.
  unfold amend_limit_order. destruct (get_by_id (ex_active e) id) as [ex|] eqn:Eg.
  2:{ intros H; inv; auto. }
  intros H. cbv zeta. apply bind_done in H as [total [Ht H]].
  assert (total = lo_rem ex + lo_filled_qty ex /\ 0 < total) as [-> Hpos].
  { unfold lo_total_quantity in Ht. inv. unfold lo_filled_qty. destruct (lo_filled ex); lia. }
  split; [assumption|].
  destruct (lo_rem ex + (nl_rem o - (lo_rem ex + lo_filled_qty ex)) <=? 0).
  - apply bind_done in H as [[e1 rc] [Hc H]]. apply cancel_spec in Hc as [_ Hc].
    destruct rc as [x|]; inv. split; [eauto | reflexivity].
  - apply bind_done in H as [o' [Ho H]]. unfold set_remaining_quantity in Ho.
    apply bind_done in Ho as [? [_ Ho]]. injection Ho as <-.
    apply bind_done in H as [[e1 rc] [Hc H]].
    apply cancel_spec in Hc as [_ Hc]. destruct rc as [lx|err].
    + eauto.
    + destruct Hc as (_ & Hr & _). exfalso. cbn in Hr. apply remove_id_none in Hr. apply Hr.
      apply get_by_id_in in Eg as [Hin <-]. apply in_map; assumption.
Qed.

(** ** Market updates *)
Lemma check_active_spec c e u e' :
  check_active_orders c e u = Done e' ->
  (can_fill u = false /\ e' = set_updates e []) \/
  (can_fill u = true /\ exists e1 act,
     (c_dbg c = true -> ex_om e = ex_active e) /\
     (forall o, In o (ex_active e) -> limit_order_filled (c_dbg c) u o = Done (fillq c u o)) /\
     fills c u (set_updates e []) (ex_active e) e1 /\
     remove_executed (map lo_id (filter (fully c u) (ex_active e))) (map (refill c u) (ex_active e)) = Done act /\
     e' = set_active e1 act /\
     0 <= bal (ex_acc e') WALLET /\
     (c_dbg c = true -> ex_om e' = ex_active e' /\
        order_margin c (ex_om e') (ex_pos e') = Done (bal (ex_acc e') ORDER_MARGIN))).
Proof.
  unfold check_active_orders. destruct (can_fill u); cbn [negb].
  2:{ intros H; inv; auto. }
  intros H. right. split; [reflexivity|].
  apply bind_done in H as [? [Hb1 H]]. pose proof (debug_assert_done _ _ _ _ Hb1) as Hb1'.
  apply bind_done in H as [[[e1 ids'] arena] [Hl H]].
  apply fill_loop_spec in Hl as (Hf & Hfills & -> & ->). cbn [set_updates ex_active ex_om] in *.
  apply bind_done in H as [act [Hr H]].
  apply bind_done in H as [? [Hb2 H]]. pose proof (debug_assert_done _ _ _ _ Hb2) as Hb2'.
  apply bind_done in H as [? [_ H]].
  apply bind_done in H as [? [Hb3 H]]. pose proof (debug_assert_m_done _ _ _ _ Hb3) as Hb3'.
  apply bind_done in H as [? [Hw H]]. unfold assert_user_wallet_balance in Hw. apply assert_done in Hw.
  injection H as <-. exists e1, act.
  split; [intros E; apply orders_eqb_eq; auto|].
  split; [assumption|]. split; [assumption|]. split; [assumption|]. split; [reflexivity|].
  split; [unfold bal; lia|]. intros E. specialize (Hb2' E). specialize (Hb3' E).
  split; [apply orders_eqb_eq; exact Hb2'|]. unfold computed_order_margin in Hb3'.
  apply bind_done in Hb3' as [comp [-> Hc]]. injection Hc as Hc. f_equal. apply Z.eqb_eq in Hc. symmetry; exact Hc.
Qed.

Lemma liquidate_spec c e e' :
  liquidate c e = Done e' ->
  exists o, market_effect c e e' o /\ nm_uid o = 0 /\
    match ex_pos e with
    | Neutral => False
    | Long i => nm_side o = Sell /\ nm_qty o = pi_qty i
    | Short i => nm_side o = Buy /\ nm_qty o = pi_qty i
    end.
Proof.
  unfold liquidate. intros H. apply bind_done in H as [o [Ho H]].
  apply bind_done in H as [[e1 r] [Hs H]]. destruct r as [f|]; inv.
  apply submit_market_spec in Hs as [_ Hm]. exists o. split; [assumption|].
  destruct (ex_pos e) as [|i|i]; [discriminate| |];
  unfold market_new in Ho; destruct (pi_qty i <=? 0); inv; auto.
Qed.

(** The state in which the maintenance check runs. *)
Definition pre_check (c : config) (e : exchange) (u : market_update) : exchange :=
  let m1 := update_market_state u (ex_ms e) in
  let ms := {| ms_bid := ms_bid m1; ms_ask := ms_ask m1; ms_ts := update_ts u; ms_step := ms_step m1 + 1 |} in
  let e1 := set_ms e ms in
  let e2 := set_trk e1 (tracker_update (ex_trk e1) (ex_ms e1)) in
  let '(trig, fire) := should_trigger (ex_trig e2) (update_ts u) in
  let e3 := set_trig e2 trig in
  if fire then set_trk e3 (tracker_sample (ex_trk e3) (balances_sum (balances e3))) else e3.

Lemma pre_check_fields c e u :
  ex_acc (pre_check c e u) = ex_acc e /\ ex_pos (pre_check c e u) = ex_pos e /\
  ex_active (pre_check c e u) = ex_active e /\ ex_om (pre_check c e u) = ex_om e /\
  ex_next_id (pre_check c e u) = ex_next_id e /\ ex_updates (pre_check c e u) = ex_updates e /\
  ex_ms (pre_check c e u) =
    {| ms_bid := ms_bid (update_market_state u (ex_ms e));
       ms_ask := ms_ask (update_market_state u (ex_ms e));
       ms_ts := update_ts u; ms_step := ms_step (ex_ms e) + 1 |} /\
  ex_trig (pre_check c e u) = fst (should_trigger (ex_trig e) (update_ts u)).
Proof.
  assert (Hst : ms_step (update_market_state u (ex_ms e)) = ms_step (ex_ms e)) by (destruct u; reflexivity).
  unfold pre_check. cbn [set_ms set_trk ex_trig].
  destruct (should_trigger (ex_trig e) (update_ts u)) as [trig fire].
  destruct fire; cbn; rewrite Hst; repeat split.
Qed.

Lemma update_state_spec c e u e' r :
  update_state c e u = Done (e', r) ->
  (c_dbg c = true -> validate_market_update (ct_pf (c_spec c)) u = Done (Ok tt)) /\
  let e0 := pre_check c e u in
  match check_maintenance_margin c (ms_bid (ex_ms e0)) (ms_ask (ex_ms e0)) (ex_pos e) with
  | Err err => r = Err (ERisk err) /\ liquidate c e0 = Done e'
  | Ok _ => r = Ok (ex_updates e') /\ check_active_orders c e0 u = Done e'
  end.
Proof.
  unfold update_state. intros H. apply bind_done in H as [ms [Hm H]].
  unfold market_update_state in Hm. apply bind_done in Hm as [? [Hv Hm]].
  pose proof (debug_assert_m_done _ _ _ _ Hv) as Hv'.
  split.
  { intros E. specialize (Hv' E). apply bind_done in Hv' as [v [-> Hv']].
    injection Hv' as Hv'. destruct v as [[]|]; [reflexivity | discriminate]. }
  cbv zeta. destruct (pre_check_fields c e u) as (_ & Hp & _).
  assert (H2 : match check_maintenance_margin c (ms_bid (ex_ms (pre_check c e u)))
                       (ms_ask (ex_ms (pre_check c e u))) (ex_pos (pre_check c e u)) with
               | Err err => e5 <- liquidate c (pre_check c e u) ;; Done (e5, Err (ERisk err))
               | Ok _ => e5 <- check_active_orders c (pre_check c e u) u ;; Done (e5, Ok (ex_updates e5))
               end = Done (e', r)).
  { injection Hm as <-. unfold pre_check. cbn [set_ms set_trk ex_trig ex_ms ex_trk] in *.
    destruct (should_trigger (ex_trig e) (update_ts u)) as [trig fire]. exact H. }
  rewrite Hp in H2.
  destruct (check_maintenance_margin _ _ _ _); inv; auto.
Qed.
