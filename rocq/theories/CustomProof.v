(** Proofs about market updates of any kind. *)
From Coq Require Import Permutation.
From Verif Require Import ProofBase BookLemmas StepLemmas FillLemmas OpLemmas Inv Spec SpecBook SpecRules SpecMargin SpecConfig SpecMarket SpecPanic SpecFlow
  SpecEntry SpecMachine Custom SpecCustom LedgerProof FeeProof FilterProof MarginProof BookProof OrderProof CoreProof SoundProof PanicProof PanicCor MarketProof LiqProof
  FlowProof FlowCor HealthProof MachineProof.

(** ** The types of the crate *)
Lemma custom_loop c u todo : forall e l, x_fill_loop c (custom_of (c_dbg c) u) e l todo = fill_loop c u e l todo.
Proof.
  induction todo as [|o t IH]; intros e l; [reflexivity|]. cbn [x_fill_loop fill_loop].
  change (x_fill_one c (custom_of (c_dbg c) u) e l o) with (fill_one c u e l o).
  destruct (fill_one c u e l o) as [[[e1 l1] o1]|w]; cbn [bind]; [rewrite IH|]; reflexivity.
Qed.

Lemma custom_check c e u : x_check c e (custom_of (c_dbg c) u) = check_active_orders c e u.
Proof. unfold x_check, check_active_orders. cbv zeta. rewrite custom_loop. reflexivity. Qed.

Lemma custom_update c e u : x_update c e (custom_of (c_dbg c) u) = update_state c e u.
Proof.
  unfold x_update, update_state, x_market_state, market_update_state. cbn [custom_of cu_valid cu_market cu_ts bind].
  destruct (debug_assert_m _ _ _) as [[]|w]; cbn [bind]; [|reflexivity].
  destruct (should_trigger _ _) as [trig fire]. rewrite custom_check. reflexivity.
Qed.

(** ** One order: the update acts like a trade of the right size beyond the limit price *)
Definition probe (o : limit_order) (q ts : Z) : trade :=
  {| tr_price := match lo_side o with Buy => lo_price o - 1 | Sell => lo_price o + 1 end; tr_qty := q;
     tr_side := match lo_side o with Buy => Sell | Sell => Buy end; tr_ts := ts |}.

Lemma probe_fills dbg o q ts : 0 < q <= lo_rem o -> limit_order_filled dbg (UTrade (probe o q ts)) o = Done (Some q).
Proof.
  intros Hq. cbn [limit_order_filled]. unfold trade_fills, probe. cbn [tr_qty tr_side tr_price].
  replace (0 <? q) with true by lia. replace (0 <? lo_rem o) with true by lia. rewrite !debug_assert_true. cbn [bind].
  assert (Hm : umin q (lo_rem o) = q) by (unfold umin; destruct (Z.ltb_spec q (lo_rem o)); lia).
  destruct (lo_side o); [replace (lo_price o - 1 <? lo_price o) with true by lia | replace (lo_price o <? lo_price o + 1) with true by lia]; rewrite Hm; reflexivity.
Qed.
Lemma probe_touched o q ts : 0 < q <= lo_rem o -> touched (RTrade (probe o q ts)) o = Some q.
Proof.
  intros Hq. cbn [touched]. unfold crosses, beyond, probe. cbn [tr_qty tr_side tr_price].
  rewrite Z.min_l by lia. destruct (lo_side o); [replace (lo_price o - 1 <? lo_price o) with true by lia | replace (lo_price o <? lo_price o + 1) with true by lia]; reflexivity.
Qed.

Lemma one_like_trade c k e l o q :
  cu_fill k o = Done (Some q) -> 0 < q <= lo_rem o -> x_fill_one c k e l o = fill_one c (UTrade (probe o q (cu_ts k))) e l o.
Proof.
  intros Hk Hq. unfold x_fill_one, fill_one. rewrite Hk, probe_fills by exact Hq. reflexivity.
Qed.

Lemma one_range c k e l o q r : cu_fill k o = Done (Some q) -> x_fill_one c k e l o = Done r -> 0 < q <= lo_rem o.
Proof.
  intros Hk H. unfold x_fill_one in H. rewrite Hk in H. cbn [bind] in H.
  apply bind_done in H as [? [_ H]]. apply bind_done in H as [? [_ H]]. apply bind_done in H as [[o1 f1] [Hf _]].
  apply order_fill_spec in Hf as [Hq _]. exact Hq.
Qed.

Lemma x_fill_one_spec c k e l o e' l' o' :
  x_fill_one c k e l o = Done (e', l', o') ->
  exists f, cu_fill k o = Done f /\
  match f with
  | None => e' = e /\ l' = l /\ o' = o
  | Some q =>
      fill_effect c (UTrade (probe o q (cu_ts k))) e e' o q /\ o' = after_fill (c_scale c) o q /\
      l' = l ++ (if q =? lo_rem o then [lo_id o] else [])
  end.
Proof.
  intros H. destruct (cu_fill k o) as [[q|]|w] eqn:Hk.
  - pose proof (one_range _ _ _ _ _ _ _ Hk H) as Hq. rewrite (one_like_trade _ _ _ _ _ _ Hk Hq) in H.
    apply fill_one_spec in H as (f & Hf & H). rewrite probe_fills in Hf by exact Hq. injection Hf as <-. exists (Some q). auto.
  - exists None. split; [reflexivity|]. unfold x_fill_one in H. rewrite Hk in H. cbn [bind] in H. injection H as <- <- <-. auto.
  - unfold x_fill_one in H. rewrite Hk in H. discriminate.
Qed.

(** ** The loop *)
Definition x_refill (c : config) (k : custom) (o : limit_order) : limit_order :=
  match answer k o with Some q => after_fill (c_scale c) o q | None => o end.
Definition x_fully (k : custom) (o : limit_order) : bool :=
  match answer k o with Some q => q =? lo_rem o | None => false end.
Definition x_event (c : config) (k : custom) (o : limit_order) : list order_update :=
  match answer k o with Some q => [fill_event (c_scale c) o q (cu_ts k)] | None => [] end.

Inductive x_fills (c : config) (k : custom) : exchange -> list limit_order -> exchange -> Prop :=
| x_fills_nil e : x_fills c k e [] e
| x_fills_none e o l e' : answer k o = None -> x_fills c k e l e' -> x_fills c k e (o :: l) e'
| x_fills_some e o q e1 l e' :
    answer k o = Some q -> fill_effect c (UTrade (probe o q (cu_ts k))) e e1 o q -> x_fills c k e1 l e' -> x_fills c k e (o :: l) e'.

Lemma x_refill_id c k o : lo_id (x_refill c k o) = lo_id o.
Proof. unfold x_refill; destruct (answer k o); reflexivity. Qed.
Lemma x_refill_eq c k o : x_refill c k o = match answer k o with Some q => after_fill (c_scale c) o q | None => o end.
Proof. reflexivity. Qed.
Lemma x_fully_eq k o : x_fully k o = match answer k o with Some q => q =? lo_rem o | None => false end.
Proof. reflexivity. Qed.
Lemma x_event_eq c k o : x_event c k o = match answer k o with Some q => [fill_event (c_scale c) o q (cu_ts k)] | None => [] end.
Proof. reflexivity. Qed.

Lemma x_fill_loop_spec c k todo e l e' l' todo' :
  x_fill_loop c k e l todo = Done (e', l', todo') ->
  (forall o, In o todo -> cu_fill k o = Done (answer k o)) /\
  x_fills c k e todo e' /\
  todo' = map (x_refill c k) todo /\
  l' = l ++ map lo_id (filter (x_fully k) todo).
Proof.
  revert e l e' l' todo'. induction todo as [|o t IH]; intros e l e' l' todo' H; cbn [x_fill_loop] in H.
  - inv. cbn. rewrite app_nil_r. repeat split; try tauto. constructor.
  - apply bind_done in H as [[[e1 ids1] o1] [H1 H]].
    apply bind_done in H as [[[e2 ids2] l2] [H2 H]]. inv.
    apply IH in H2 as (Hf & Hl & -> & ->).
    apply x_fill_one_spec in H1 as [f [Hof Hcase]].
    assert (Hq : answer k o = f) by (unfold answer; rewrite Hof; reflexivity).
    split; [intros x [<-|Hx]; [congruence | auto]|].
    cbn [map filter]. rewrite (x_refill_eq c k o), (x_fully_eq k o), Hq. destruct f as [q|].
    + destruct Hcase as (He & -> & ->). split; [econstructor; eassumption|].
      split; [reflexivity|]. rewrite <- app_assoc. f_equal. destruct (q =? lo_rem o); reflexivity.
    + destruct Hcase as (-> & -> & ->). split; [constructor; assumption|]. split; reflexivity.
Qed.

Lemma x_fills_stable c k e l e' :
  x_fills c k e l e' ->
  ex_ms e' = ex_ms e /\ ex_next_id e' = ex_next_id e /\ ex_trig e' = ex_trig e /\
  ex_active e' = ex_active e /\
  ex_updates e' = ex_updates e ++ flat_map (x_event c k) l.
Proof.
  induction 1 as [e|e o l e' Hn Hl IH|e o q e1 l e' Hq He Hl IH]; cbn.
  - rewrite app_nil_r. auto.
  - rewrite (x_event_eq c k o), Hn. exact IH.
  - destruct IH as (-> & -> & -> & -> & ->). rewrite (fe_ms _ _ _ _ _ _ He), (fe_next _ _ _ _ _ _ He), (fe_trig _ _ _ _ _ _ He), (fe_active _ _ _ _ _ _ He), (fe_updates _ _ _ _ _ _ He).
    rewrite (x_event_eq c k o), Hq. rewrite <- app_assoc. auto.
Qed.

Lemma x_fills_tpath c k e l e' : x_fills c k e l e' -> tpath (ex_acc e) (ex_acc e').
Proof.
  induction 1; [apply tp_refl | assumption | eapply tpath_trans; [eapply fe_tpath; eassumption | assumption]].
Qed.

Lemma x_fills_pos_ok c k e l e' : x_fills c k e l e' -> pos_ok (ex_pos e) -> pos_ok (ex_pos e').
Proof.
  induction 1 as [|e o l e' Hn Hl IH|e o q e1 l e' Hq He Hl IH]; intros Hp; auto.
  apply IH. destruct (fe_acc _ _ _ _ _ _ He) as (acc1 & new_om & Hcp & _).
  eapply cp_pos_ok; eassumption.
Qed.

Lemma x_fills_book c k e todo e' done_ l :
  x_fills c k e todo e' ->
  NoDup (ids (done_ ++ todo)) ->
  (forall i, In i l -> In i (ids done_)) ->
  remove_executed l (done_ ++ todo) = Done (ex_om e) ->
  remove_executed (l ++ map lo_id (filter (x_fully k) todo)) (done_ ++ map (x_refill c k) todo)
  = Done (ex_om e').
Proof.
  intros H. revert done_ l. induction H as [e|e o t e' Hq Hl IH|e o q e1 t e' Hq He Hl IH]; intros d l Hn Hin Hr.
  - cbn. rewrite !app_nil_r. rewrite app_nil_r in Hr. exact Hr.
  - cbn [map filter]. rewrite (x_refill_eq c k o), (x_fully_eq k o), Hq.
    replace (d ++ o :: map (x_refill c k) t) with ((d ++ [o]) ++ map (x_refill c k) t) by (rewrite <- app_assoc; reflexivity).
    apply IH.
    + rewrite <- app_assoc; exact Hn.
    + intros i Hi. rewrite ids_app. apply in_or_app; left; auto.
    + rewrite <- app_assoc; exact Hr.
  - assert (Hno : NoDup (ids d ++ lo_id o :: ids t)) by (unfold ids in *; rewrite map_app in Hn; exact Hn).
    assert (Hod : ~ In (lo_id o) (ids d)).
    { apply NoDup_remove_2 in Hno. intros Hx; apply Hno, in_or_app; auto. }
    assert (Hot : ~ In (lo_id o) (ids t)).
    { apply NoDup_remove_2 in Hno. intros Hx; apply Hno, in_or_app; auto. }
    assert (Hol : ~ In (lo_id o) l) by auto.
    set (o' := after_fill (c_scale c) o q).
    assert (Hrep : map (upd (lo_id o) o') (d ++ o :: t) = d ++ o' :: t).
    { rewrite map_app. cbn [map]. rewrite !upd_notin by assumption. unfold upd.
      rewrite Z.eqb_refl. reflexivity. }
    assert (Hr' : remove_executed l (d ++ o' :: t) = Done (map (upd (lo_id o) o') (ex_om e))).
    { rewrite <- Hrep. apply remove_executed_upd; [reflexivity | exact Hr]. }
    pose proof (remove_executed_spec _ _ _ Hn Hr) as [HnOm HxOm].
    assert (Hoin : In o (ex_om e)).
    { apply HxOm. split; [apply in_or_app; right; left; reflexivity | exact Hol]. }
    assert (Hr1 : remove_executed (l ++ (if q =? lo_rem o then [lo_id o] else [])) (d ++ o' :: t) = Done (ex_om e1)).
    { pose proof (fe_om _ _ _ _ _ _ He) as Hom. destruct (q =? lo_rem o).
      - rewrite remove_executed_app, Hr'. cbn [bind remove_executed].
        apply om_remove_id_done in Hom as [x Hx].
        rewrite (remove_id_upd_same (ex_om e) (lo_id o) o' x (ex_om e1) HnOm eq_refl Hx). reflexivity.
      - rewrite app_nil_r, Hr'. f_equal.
        apply om_update_done in Hom as [_ [(Hg & _)|(old & Hg & -> & _)]].
        + exfalso. apply get_by_id_none in Hg. apply Hg. cbn. apply in_map; exact Hoin.
        + rewrite replace_by_id_map by exact HnOm. reflexivity. }
    cbn [map filter]. rewrite (x_refill_eq c k o), (x_fully_eq k o), Hq. fold o'.
    replace (d ++ o' :: map (x_refill c k) t) with ((d ++ [o']) ++ map (x_refill c k) t) by (rewrite <- app_assoc; reflexivity).
    replace (l ++ map lo_id (if q =? lo_rem o then o :: filter (x_fully k) t else filter (x_fully k) t))
      with ((l ++ (if q =? lo_rem o then [lo_id o] else [])) ++ map lo_id (filter (x_fully k) t))
      by (destruct (q =? lo_rem o); rewrite <- app_assoc; reflexivity).
    apply IH.
    + rewrite <- app_assoc. cbn [app]. unfold ids in *. rewrite map_app in *. cbn [map] in *. exact Hn.
    + intros i Hi. rewrite ids_app. apply in_app_or in Hi as [Hi|Hi]; apply in_or_app; [left; auto|].
      right. destruct (q =? lo_rem o); [exact Hi | contradiction].
    + rewrite <- app_assoc. exact Hr1.
Qed.

(** ** A check *)
Lemma x_check_spec c e k e' :
  x_check c e k = Done e' ->
  (cu_can k = false /\ e' = set_updates e []) \/
  (cu_can k = true /\ exists e1 act,
     (forall o, In o (ex_active e) -> cu_fill k o = Done (answer k o)) /\
     x_fills c k (set_updates e []) (ex_active e) e1 /\
     remove_executed (map lo_id (filter (x_fully k) (ex_active e))) (map (x_refill c k) (ex_active e)) = Done act /\
     e' = set_active e1 act /\
     0 <= bal (ex_acc e') WALLET).
Proof.
  unfold x_check. destruct (cu_can k); cbn [negb].
  2:{ intros H; inv; auto. }
  intros H. right. split; [reflexivity|].
  apply bind_done in H as [? [_ H]].
  apply bind_done in H as [[[e1 ids'] arena] [Hl H]].
  apply x_fill_loop_spec in Hl as (Hf & Hfills & -> & ->). cbn [set_updates ex_active ex_om] in *.
  apply bind_done in H as [act [Hr H]].
  apply bind_done in H as [? [_ H]].
  apply bind_done in H as [? [_ H]].
  apply bind_done in H as [? [_ H]].
  apply bind_done in H as [? [Hw H]]. unfold assert_user_wallet_balance in Hw. apply assert_done in Hw.
  injection H as <-. exists e1, act.
  split; [assumption|]. split; [assumption|]. split; [assumption|]. split; [reflexivity|]. unfold bal; lia.
Qed.

Lemma x_fills_q c k e l e' o q : x_fills c k e l e' -> In o l -> answer k o = Some q -> 0 < q <= lo_rem o.
Proof.
  induction 1 as [|e x l e' Hn Hl IH|e x qx e1 l e' Hq He Hl IH]; cbn [In]; intros Hin Hf.
  - contradiction.
  - destruct Hin as [->|Hin]; [congruence | auto].
  - destruct Hin as [->|Hin]; [|auto]. assert (q = qx) by congruence. subst.
    apply (fe_q _ _ _ _ _ _ He).
Qed.

Lemma x_fills_active c k e l e' act :
  x_fills c k e l e' -> NoDup (ids l) ->
  remove_executed (map lo_id (filter (x_fully k) l)) (map (x_refill c k) l) = Done act ->
  NoDup (ids act) /\ (length act <= length l)%nat /\
  (forall x, In x act <-> exists o, In o l /\ x_fully k o = false /\ x = x_refill c k o).
Proof.
  intros Hf Hn Hr.
  assert (Hids : ids (map (x_refill c k) l) = ids l).
  { unfold ids. rewrite map_map. apply map_ext. intros; apply x_refill_id. }
  assert (Hn' : NoDup (ids (map (x_refill c k) l))) by (rewrite Hids; exact Hn).
  destruct (remove_executed_spec _ _ _ Hn' Hr) as [Hna Hx].
  split; [exact Hna|]. split.
  { apply remove_executed_length in Hr. rewrite !map_length in Hr. lia. }
  intros x. rewrite Hx. rewrite in_map_iff. split.
  - intros [[o [<- Ho]] Hni]. exists o. split; [exact Ho|]. split; [|reflexivity].
    destruct (x_fully k o) eqn:E; [|reflexivity]. exfalso. apply Hni. rewrite x_refill_id.
    apply in_map. apply filter_In. auto.
  - intros (o & Ho & E & ->). split; [eauto|]. rewrite x_refill_id. intros Hin.
    apply in_map_iff in Hin as [o2 [Hid Hin]]. apply filter_In in Hin as [Hin E2].
    assert (o2 = o) by (exact (nodup_ids_inj _ _ _ Hn Hin Ho Hid)). congruence.
Qed.

Lemma x_refill_ok c k o q :
  order_ok o -> answer k o = Some q -> 0 < q <= lo_rem o -> x_fully k o = false -> order_ok (x_refill c k o).
Proof.
  unfold order_ok. intros (Hr & Hp & Hc) Hq Hb Hf. rewrite x_refill_eq, Hq. rewrite x_fully_eq, Hq in Hf.
  cbn. split; [lia|]. split; [assumption|]. destruct (lo_filled o); cbn beta iota in *; lia.
Qed.

Lemma x_check_inv c e k e' : Inv c e -> x_check c e k = Done e' -> Inv c e'.
Proof.
  intros HI H. apply x_check_spec in H as [(_ & ->) | (_ & e1 & act & _ & Hf & Hr & -> & _)].
  - destruct HI; constructor; assumption.
  - pose proof (x_fills_book _ _ _ _ _ [] [] Hf) as Hb. cbn [app] in Hb.
    specialize (Hb (inv_nodup _ _ HI) (fun i Hi => match Hi with end)).
    cbn [remove_executed set_updates ex_om] in Hb. rewrite (inv_books _ _ HI) in Hb. specialize (Hb eq_refl).
    destruct (x_fills_active _ _ _ _ _ _ Hf (inv_nodup _ _ HI) Hr) as (Hna & Hlen & Hx).
    destruct (x_fills_stable _ _ _ _ _ Hf) as (_ & Hnext & _). cbn [set_updates ex_next_id] in Hnext.
    constructor; cbn [set_active ex_om ex_active ex_next_id ex_pos].
    + congruence.
    + exact Hna.
    + intros x Hin. apply Hx in Hin as (o & Ho & _ & ->). rewrite x_refill_id, Hnext. apply (inv_ids _ _ HI o Ho).
    + intros x Hin. apply Hx in Hin as (o & Ho & E & ->). pose proof (inv_ok _ _ HI o Ho) as Hok.
      destruct (answer k o) as [q|] eqn:Eq.
      * eapply x_refill_ok; eauto. eapply x_fills_q; eassumption.
      * rewrite x_refill_eq, Eq. exact Hok.
    + pose proof (inv_len _ _ HI). lia.
    + eapply x_fills_pos_ok; [exact Hf | apply (inv_pos _ _ HI)].
    + rewrite Hnext. apply (inv_next _ _ HI).
Qed.

Lemma x_check_tpath c e k e' : x_check c e k = Done e' -> tpath (ex_acc e) (ex_acc e').
Proof.
  intros H. apply x_check_spec in H as [(_ & ->) | (_ & e1 & act & _ & Hf & _ & -> & _)].
  - apply tp_refl.
  - apply x_fills_tpath in Hf. exact Hf.
Qed.

Lemma x_check_answers c e k e' o :
  x_check c e k = Done e' -> cu_can k = true -> In o (ex_active e) -> sensible k o.
Proof.
  intros H Hc Ho. apply x_check_spec in H as [(Hc' & _) | (_ & e1 & act & Ha & Hf & _)]; [congruence|].
  unfold sensible. destruct (answer k o) as [q|] eqn:E; rewrite (Ha o Ho), E; [right|left; reflexivity].
  exists q. split; [reflexivity|]. eapply x_fills_q; eassumption.
Qed.

(** ** An update *)
Definition x_ready (c : config) (e : exchange) (k : custom) (m1 : market_state) : exchange :=
  let ms := {| ms_bid := ms_bid m1; ms_ask := ms_ask m1; ms_ts := cu_ts k; ms_step := ms_step m1 + 1 |} in
  let e1 := set_ms e ms in
  let e2 := set_trk e1 (tracker_update (ex_trk e1) (ex_ms e1)) in
  let '(trig, fire) := should_trigger (ex_trig e2) (cu_ts k) in
  let e3 := set_trig e2 trig in
  if fire then set_trk e3 (tracker_sample (ex_trk e3) (balances_sum (balances e3))) else e3.

Lemma x_ready_fields c e k m1 :
  ex_acc (x_ready c e k m1) = ex_acc e /\ ex_pos (x_ready c e k m1) = ex_pos e /\
  ex_active (x_ready c e k m1) = ex_active e /\ ex_om (x_ready c e k m1) = ex_om e /\
  ex_next_id (x_ready c e k m1) = ex_next_id e /\
  ex_ms (x_ready c e k m1) = {| ms_bid := ms_bid m1; ms_ask := ms_ask m1; ms_ts := cu_ts k; ms_step := ms_step m1 + 1 |}.
Proof.
  unfold x_ready. cbn [set_ms set_trk ex_trig].
  destruct (should_trigger (ex_trig e) (cu_ts k)) as [trig fire].
  destruct fire; cbn; auto 10.
Qed.

Lemma x_update_spec c e k e' r :
  x_update c e k = Done (e', r) ->
  exists m1, cu_market k (ex_ms e) = Done m1 /\
  let e0 := x_ready c e k m1 in
  match check_maintenance_margin c (ms_bid m1) (ms_ask m1) (ex_pos e) with
  | Err err => r = Err (ERisk err) /\ liquidate c e0 = Done e'
  | Ok _ => r = Ok (ex_updates e') /\ x_check c e0 k = Done e'
  end.
Proof.
  unfold x_update. intros H. apply bind_done in H as [ms [Hm H]].
  unfold x_market_state in Hm. apply bind_done in Hm as [? [_ Hm]]. apply bind_done in Hm as [m1 [Hm1 Hm]].
  exists m1. split; [exact Hm1|]. cbv zeta. destruct (x_ready_fields c e k m1) as (_ & Hp & _ & _ & _ & Hms).
  assert (H2 : match check_maintenance_margin c (ms_bid (ex_ms (x_ready c e k m1)))
                       (ms_ask (ex_ms (x_ready c e k m1))) (ex_pos (x_ready c e k m1)) with
               | Err err => e5 <- liquidate c (x_ready c e k m1) ;; Done (e5, Err (ERisk err))
               | Ok _ => e5 <- x_check c (x_ready c e k m1) k ;; Done (e5, Ok (ex_updates e5))
               end = Done (e', r)).
  { injection Hm as <-. unfold x_ready. cbn [set_ms set_trk ex_trig ex_ms ex_trk] in *.
    destruct (should_trigger (ex_trig e) (cu_ts k)) as [trig fire]. exact H. }
  rewrite Hp, Hms in H2. cbn [ms_bid ms_ask] in H2.
  destruct (check_maintenance_margin _ _ _ _); inv; auto.
Qed.

Lemma x_ready_inv c e k m1 : Inv c e -> Inv c (x_ready c e k m1).
Proof.
  intros HI. destruct (x_ready_fields c e k m1) as (Ha & Hp & Hact & Hom & Hn & _).
  destruct HI. constructor; rewrite ?Hact, ?Hom, ?Hp, ?Hn; assumption.
Qed.

Lemma x_step_inv c e o e' r : c_max c <= 10000 -> Inv c e -> x_step c e o = Done (e', r) -> Inv c e'.
Proof.
  intros Hm HI. destruct o as [o|k|k]; cbn [x_step]; intros H.
  - eapply step_inv; eassumption.
  - apply map_out_done in H as (r0 & H & ->). apply x_update_spec in H as (m1 & _ & H). cbv zeta in H.
    pose proof (x_ready_inv c e k m1 HI) as HI1. destruct (check_maintenance_margin _ _ _ _).
    + destruct H as [_ H]. eapply x_check_inv; eassumption.
    + destruct H as [_ H]. apply liquidate_spec in H as (o & M & _). eapply market_effect_inv; eassumption.
  - apply bind_done in H as [e1 [H H1]]. inv. eapply x_check_inv; eassumption.
Qed.

Lemma x_step_tpath c e o e' r : x_step c e o = Done (e', r) -> tpath (ex_acc e) (ex_acc e').
Proof.
  destruct o as [o|k|k]; cbn [x_step]; intros H.
  - eapply step_tpath; eassumption.
  - apply map_out_done in H as (r0 & H & ->). apply x_update_spec in H as (m1 & _ & H). cbv zeta in H.
    destruct (x_ready_fields c e k m1) as (Ha & _). rewrite <- Ha. destruct (check_maintenance_margin _ _ _ _).
    + destruct H as [_ H]. eapply x_check_tpath; eassumption.
    + destruct H as [_ H]. apply liquidate_spec in H as (o & M & _). eapply market_effect_tpath; eassumption.
  - apply bind_done in H as [e1 [H H1]]. inv. eapply x_check_tpath; eassumption.
Qed.

(** ** Accounts and position *)
Section XCore.
  Variable c : config.
  Variable P : accounts -> position -> Prop.
  Hypothesis HF : core_fill c P.
  Hypothesis HM : core_move P.

  Lemma x_core_fills k l e e' :
    x_fills c k e l e' -> (forall o, In o l -> order_ok o) -> pos_ok (ex_pos e) -> P (ex_acc e) (ex_pos e) -> P (ex_acc e') (ex_pos e').
  Proof.
    induction 1 as [|e o l e' Hn Hl IH|e o q e1 l e' Hq He Hl IH]; intros Hok Hp H; auto.
    - apply IH; auto. intros; apply Hok; right; assumption.
    - destruct (fe_acc _ _ _ _ _ _ He) as (acc1 & n & Hcp & _ & _ & Ha).
      assert (H1 : P acc1 (ex_pos e1)).
      { eapply HF; [| | | exact Hp | exact Hcp | exact H]; [apply (fe_q _ _ _ _ _ _ He) | | left; reflexivity].
        destruct (Hok o (or_introl eq_refl)) as (_ & Hx & _). exact Hx. }
      apply IH; [intros; apply Hok; right; assumption | eapply cp_pos_ok; eassumption |]. rewrite Ha.
      match goal with |- P (if ?b then _ else _) _ => destruct b eqn:E end; [|exact H1]. apply HM; [lia | exact H1].
  Qed.

  Lemma x_core_check e k e' : Inv c e -> x_check c e k = Done e' -> P (ex_acc e) (ex_pos e) -> P (ex_acc e') (ex_pos e').
  Proof.
    intros I H HP. apply x_check_spec in H as [(_ & ->)|(_ & e1 & act & _ & Hf & _ & -> & _)]; [exact HP|].
    cbn [set_active ex_acc ex_pos]. eapply x_core_fills; [exact Hf | apply (inv_ok _ _ I) | apply (inv_pos _ _ I) | exact HP].
  Qed.

  Lemma x_step_core e o e' r : Inv c e -> x_step c e o = Done (e', r) -> P (ex_acc e) (ex_pos e) -> P (ex_acc e') (ex_pos e').
  Proof.
    intros I H HP. destruct o as [o|k|k]; cbn [x_step] in H.
    - eapply step_core; eassumption.
    - apply map_out_done in H as (rr & H & _). apply x_update_spec in H as (m1 & _ & H). cbv zeta in H.
      pose proof (x_ready_inv c e k m1 I) as I0. destruct (x_ready_fields c e k m1) as (E1 & E2 & _).
      destruct (check_maintenance_margin _ _ _ _).
      + destruct H as [_ H]. eapply x_core_check; [exact I0 | exact H |]. rewrite E1, E2. exact HP.
      + destruct H as [_ H]. apply liquidate_spec in H as (o & M & _).
        eapply (core_market c P HF); [apply (inv_pos _ _ I0) | exact M |]. rewrite E1, E2. exact HP.
    - apply bind_done in H as [e1 [H Hr]]. injection Hr as <- <-. eapply x_core_check; eassumption.
  Qed.
End XCore.

(** ** Histories *)
Lemma x_run_snoc c ops o : forall e e2 outs,
  x_run c e (ops ++ [o]) = Done (e2, outs) ->
  exists e1 r rs, x_run c e ops = Done (e1, rs) /\ x_step c e1 o = Done (e2, r) /\ outs = rs ++ [r].
Proof.
  induction ops as [|a ops IH]; intros e e2 outs H; cbn [app x_run] in H.
  - apply bind_done in H as [[e1 r] [H1 H]]. cbn [bind] in H. injection H as <- <-. exists e, r, []. auto.
  - apply bind_done in H as [[e1 r] [H1 H]]. apply bind_done in H as [[e3 rs] [H2 H]]. injection H as <- <-.
    apply IH in H2 as (e4 & r4 & rs4 & H2 & H3 & ->). exists e4, r4, (r :: rs4). cbn [x_run]. rewrite H1. cbn [bind]. rewrite H2. auto.
Qed.

Lemma x_run_ind c (P : exchange -> Prop) :
  (forall e o e' r, P e -> x_step c e o = Done (e', r) -> P e') ->
  forall ops e e' outs, P e -> x_run c e ops = Done (e', outs) -> P e'.
Proof.
  intros HS. induction ops as [|a ops IH]; intros e e' outs HP H; cbn [x_run] in H.
  - injection H as <- <-. exact HP.
  - apply bind_done in H as [[e1 r] [H1 H]]. apply bind_done in H as [[e3 rs] [H2 H]]. injection H as <- <-.
    eapply IH; [|exact H2]. eapply HS; eassumption.
Qed.

Lemma mixed_inv c e : valid_config c -> mixed_reachable c e -> Inv c e /\ entry_ok (ex_pos e) /\ debit_sum (ex_acc e) = credit_sum (ex_acc e).
Proof.
  intros V (ops & outs & e0 & Hi & Hr).
  refine (x_run_ind c (fun e => Inv c e /\ entry_ok (ex_pos e) /\ debit_sum (ex_acc e) = credit_sum (ex_acc e)) _ ops e0 e outs _ Hr).
  - intros a o b r (I & E & D) H. split; [eapply x_step_inv; [apply (vc_max _ V) | exact I | exact H]|].
    split; [|eapply tpath_sums; [eapply x_step_tpath; exact H | exact D]].
    apply (x_step_core c (fun _ pos => entry_ok pos)) with (e := a) (o := o) (r := r); try assumption.
    + intros acc q p sd rate pos pos' acc' Hq Hp _ Hok Hcp E'. unfold entry_ok in *.
      destruct Hcp; destruct sd; cbn in *; try lia; apply average_nonneg; try lia; pose proof (vc_scale _ V); lia.
    + intros acc pos n _ E'. auto.
  - split; [eapply init_inv; [apply (vc_max _ V) | exact Hi]|]. apply init_fields in Hi as (_ & _ & _ & _ & Hp & _ & _ & _ & _ & Ha).
    rewrite Hp, Ha. split; [cbv; discriminate|]. unfold debit_sum, credit_sum. cbn. lia.
Qed.

(** ** The reference machine *)
Lemma take_meet c ts m o q : 0 < q <= lo_rem o -> m_meet c (RTrade (probe o q ts)) m o = m_take c ts m o q.
Proof. intros Hq. unfold m_meet, m_take. rewrite probe_touched by exact Hq. reflexivity. Qed.

Lemma x_meet_fills c k l e e' :
  valid_config c -> x_fills c k e l e' ->
  NoDup (ids (ex_om e)) -> good_book (ex_om e) -> pos_ok (ex_pos e) -> NoDup (ids l) -> (forall o, In o l -> In o (ex_om e)) ->
  view e' = fold_left (x_meet c k) l (view e).
Proof.
  intros V F. induction F as [e|e o l e' Hq F IH|e o q e1 l e' Hq He F IH]; intros Hnd Hg Hpo Hl Hin.
  - reflexivity.
  - cbn [fold_left]. unfold x_meet at 2. rewrite Hq. inversion Hl; subst.
    apply IH; try assumption; intros; apply Hin; right; assumption.
  - cbn [fold_left]. inversion Hl as [|? ? Hno Hl']; subst. pose proof (fe_q _ _ _ _ _ _ He) as Hr.
    destruct (meet_one _ _ _ _ _ _ _ V He (probe_touched o q (cu_ts k) Hr) eq_refl Hnd Hg Hpo (Hin o (or_introl eq_refl))) as (Hv & Hnd' & Hg' & Hpo' & Hk).
    rewrite take_meet in Hv by exact Hr. unfold x_meet at 2. rewrite Hq, <- Hv. apply IH; try assumption.
    intros x Hx. apply Hk; [apply Hin; right; exact Hx|]. intros E. apply Hno. rewrite <- E. apply (in_map lo_id) in Hx. exact Hx.
Qed.

Lemma x_check_view c k e e' :
  valid_config c -> Inv c e -> x_check c e k = Done e' ->
  view e' = x_meet_all c k (view e) /\ ex_updates e' = x_reports c k (ex_active e).
Proof.
  intros V I H. unfold x_meet_all, x_reports.
  apply x_check_spec in H as [(Hc & ->)|(Hc & e1 & act & _ & F & _ & -> & _)]; rewrite Hc.
  - split; reflexivity.
  - change (m_orders (view e)) with (ex_om e). rewrite (inv_books _ _ I). split.
    + change (view (set_active e1 act)) with (view e1). change (view e) with (view (set_updates e [])).
      eapply x_meet_fills; [exact V | exact F | | | | |].
      * cbn [set_updates ex_om]. rewrite (inv_books _ _ I). apply (inv_nodup _ _ I).
      * cbn [set_updates ex_om]. rewrite (inv_books _ _ I). apply (good_of_inv _ _ I).
      * apply (inv_pos _ _ I).
      * apply (inv_nodup _ _ I).
      * intros o Ho. cbn [set_updates ex_om]. rewrite (inv_books _ _ I). exact Ho.
    + destruct (x_fills_stable _ _ _ _ _ F) as (_ & _ & _ & _ & S). cbn [set_active ex_updates]. rewrite S.
      cbn [set_updates ex_updates app]. apply flat_map_ext_in. intros o Ho. rewrite x_event_eq. destruct (answer k o); [|reflexivity].
      rewrite fill_event_report. reflexivity.
Qed.

Lemma due_sees c e : pos_ok (ex_pos e) -> (m_due c (view e) = true <-> due c (ex_pos e) (ms_bid (ex_ms e)) (ms_ask (ex_ms e))).
Proof.
  intros Hpo. unfold m_due, due. cbn [view m_pos m_book ledger_abs l_qty l_entry m_bid m_ask].
  destruct (ex_pos e) as [|i|i]; cbn [position_quantity position_entry_price pos_ok] in *.
  - cbn. split; [discriminate | contradiction].
  - destruct (Z.ltb_spec 0 (pi_qty i)); [|lia]. apply Z.leb_le.
  - destruct (Z.ltb_spec 0 (- pi_qty i)); [lia|]. destruct (Z.ltb_spec (- pi_qty i) 0); [|lia]. apply Z.ltb_lt.
Qed.

Lemma due_decided c e :
  valid_config c -> pos_ok (ex_pos e) -> entry_ok (ex_pos e) ->
  check_maintenance_margin c (ms_bid (ex_ms e)) (ms_ask (ex_ms e)) (ex_pos e)
  = if m_due c (view e) then Err Liquidate else Ok tt.
Proof.
  intros V Hpo He. pose proof (due_sees c e Hpo) as D0.
  pose proof (due_check c (ex_pos e) (ms_bid (ex_ms e)) (ms_ask (ex_ms e)) (vc_scale _ V)
    ltac:(pose proof (vc_mm _ V); pose proof (vc_imr _ V); lia) He) as D.
  destruct (check_maintenance_margin _ _ _ _) as [[]|err] eqn:E; destruct (m_due c (view e)); try reflexivity.
  - destruct (proj2 D (proj1 D0 eq_refl)) as [? ?]. discriminate.
  - rewrite (maintenance_err _ _ _ _ _ E). reflexivity.
  - exfalso. assert (X : false = true) by (apply D0, D; eauto). discriminate.
Qed.

Lemma liquidate_view c e e' :
  Inv c e -> liquidate c e = Done e' ->
  view e' = with_id (m_fill c (view e) (taken c (view e) (if 0 <? m_pos (view e) then Sell else Buy) (Z.abs (m_pos (view e))))).
Proof.
  intros I H. apply liquidate_spec in H as (o & M & _ & Ho). rewrite (market_view _ _ _ _ I M). pose proof (inv_pos _ _ I) as Hpo.
  rewrite pos_view. destruct (ex_pos e) as [|i|i]; [contradiction| |]; destruct Ho as [-> ->]; cbn [position_quantity pos_ok] in *.
  - destruct (Z.ltb_spec 0 (pi_qty i)); [|lia]. rewrite Z.abs_eq by lia. reflexivity.
  - destruct (Z.ltb_spec 0 (- pi_qty i)); [lia|]. rewrite Z.abs_opp, Z.abs_eq by lia. reflexivity.
Qed.

Lemma x_update_view c k e e' r :
  valid_config c -> Inv c e -> entry_ok (ex_pos e) -> x_step c e (XUpdate k) = Done (e', r) ->
  exists ms, cu_market k (ex_ms e) = Done ms /\ x_moved c k ms (view e) = (view e', r).
Proof.
  intros V I He H. cbn [x_step] in H. apply map_out_done in H as (rr & H & Hr). apply x_update_spec in H as (m1 & Hm & H). cbv zeta in H.
  exists m1. split; [exact Hm|]. destruct (x_ready_fields c e k m1) as (E1 & E2 & E3 & E4 & E5 & E6).
  pose proof (x_ready_inv c e k m1 I) as I0. set (e0 := x_ready c e k m1) in *.
  assert (Q : x_quoted (view e) m1 (cu_ts k) = view e0).
  { apply machine_eq; cbn [x_quoted view m_book m_held m_reserved m_orders m_bid m_ask m_time m_next]; rewrite ?E1, ?E2, ?E4, ?E5, ?E6; reflexivity. }
  unfold x_moved. rewrite Q.
  pose proof (due_decided c e0 V (inv_pos _ _ I0) ltac:(rewrite E2; exact He)) as D. rewrite E2, E6 in D. cbn [ms_bid ms_ask] in D. rewrite D in H.
  destruct (m_due c (view e0)); destruct H as [-> H]; subst r; cbn [map_result].
  - rewrite (liquidate_view _ _ _ I0 H). reflexivity.
  - destruct (x_check_view _ _ _ _ V I0 H) as [-> ->]. change (m_orders (view e0)) with (ex_om e0). rewrite (inv_books _ _ I0). reflexivity.
Qed.

(** Ordinary calls, from any state with the invariants. *)
Lemma call_view c e o e' r :
  valid_config c -> Inv c e -> entry_ok (ex_pos e) -> step c e o = Done (e', r) -> m_call c (view e) o = (view e', r).
Proof.
  intros V I He H. destruct o; cbn [m_call].
  - cbn [step] in H. apply bind_done in H as [u [Hu H]]. apply map_out_done in H as (rr & H & Hr). apply update_state_spec in H as [_ H]. cbv zeta in H.
    unfold m_update. rewrite <- (pre_check_view c e r0 u Hu). pose proof (pre_check_inv c e u I) as I0. destruct (pre_check_fields c e u) as (E1 & E2 & _).
    pose proof (due_decided c (pre_check c e u) V (inv_pos _ _ I0) ltac:(rewrite E2; exact He)) as D. rewrite E2 in D. rewrite D in H.
    destruct (m_due c (view (pre_check c e u))); destruct H as [-> H]; subst r; cbn [map_result].
    + rewrite (liquidate_view _ _ _ I0 H). reflexivity.
    + rewrite (check_view _ _ _ _ _ V I0 Hu H). destruct (check_active_effect _ _ _ _ _ I0 Hu H) as (C1 & _).
      rewrite C1. change (m_orders (view (pre_check c e u))) with (ex_om (pre_check c e u)). rewrite (inv_books _ _ I0). reflexivity.
  - apply market_call; assumption.
  - cbn [step] in H. unfold limit_new in H. unfold m_limit.
    destruct (Z.leb_spec price 0); [injection H as <- <-; reflexivity|]. destruct (Z.leb_spec qty 0); [injection H as <- <-; reflexivity|].
    apply submit_view; assumption.
  - apply cancel_view; assumption.
  - apply amend_view; assumption.
  - cbn [step] in H. apply bind_done in H as [u [Hu H]]. apply bind_done in H as [e1 [H2 H]]. injection H as <- <-.
    rewrite (check_view _ _ _ _ _ V I Hu H2). reflexivity.
Qed.
