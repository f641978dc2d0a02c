(** Characterisation of the fill loop. *)
From Coq Require Import Permutation.
From Verif Require Import ProofBase BookLemmas StepLemmas.

Definition after_fill (s : Z) (o : limit_order) (q : Z) : limit_order :=
  {| lo_uid := lo_uid o; lo_side := lo_side o; lo_price := lo_price o; lo_rem := lo_rem o - q;
     lo_id := lo_id o; lo_ts := lo_ts o;
     lo_filled := match lo_filled o with
                  | Unfilled => FilledQ q (lo_price o)
                  | FilledQ cum avg => FilledQ (cum + q) (weighted s avg cum (lo_price o) q)
                  end |}.

Definition done_fill (o : limit_order) (q ts : Z) : filled_limit :=
  {| fl_uid := lo_uid o; fl_side := lo_side o; fl_price := lo_price o; fl_rem := 0; fl_id := lo_id o;
     fl_ts := lo_ts o; fl_exec_ts := ts; fl_avg := lo_price o; fl_qty := lo_filled_qty o + q |}.

Definition fill_event (s : Z) (o : limit_order) (q ts : Z) : order_update :=
  if q =? lo_rem o then FullyFilled (done_fill o q ts) else PartiallyFilled (after_fill s o q).

Lemma order_fill_spec s o q ts o' r :
  order_fill s o q ts = Done (o', r) ->
  0 < q <= lo_rem o /\ o' = after_fill s o q /\
  r = if q =? lo_rem o then Some (done_fill o q ts) else None.
Proof.
  unfold order_fill, after_fill, done_fill, lo_filled_qty. intros H; inv.
  destruct (lo_filled o) as [|cum avg].
  - destruct (q =? lo_rem o); inv; (split; [lia | split; reflexivity]).
  - inv. tr. replace (lo_rem o - q =? 0) with (q =? lo_rem o) in H by lia.
    destruct (q =? lo_rem o); inv; (split; [lia | split; reflexivity]).
Qed.

Definition fee_of (c : config) (q p rate : Z) : Z :=
  dmul (c_scale c) (conv (c_kind c) (c_scale c) q p) rate.

Definition trk_fill (c : config) (t : tracker) (o : limit_order) (q : Z) : tracker :=
  let t1 := log_limit_order_fill t (q =? lo_rem o) in
  let v := conv (c_kind c) (c_scale c) q (lo_price o) in
  match lo_side o with
  | Buy => tracker_add t1 0 0 0 0 0 0 v 0
  | Sell => tracker_add t1 0 0 0 0 0 0 0 v
  end.

Record fill_effect (c : config) (u : market_update) (e e' : exchange) (o : limit_order) (q : Z) : Prop := {
  fe_q : 0 < q <= lo_rem o;
  fe_om : if q =? lo_rem o then om_remove (ex_om e) (ByOrderId (lo_id o)) = Done (ex_om e')
          else om_update (c_max c) (ex_om e) (after_fill (c_scale c) o q) = Done (ex_om e', Ok tt);
  fe_updates : ex_updates e' = ex_updates e ++ [fill_event (c_scale c) o q (update_ts u)];
  fe_ms : ex_ms e' = ex_ms e;
  fe_next : ex_next_id e' = ex_next_id e;
  fe_trig : ex_trig e' = ex_trig e;
  fe_active : ex_active e' = ex_active e;
  fe_trk : ex_trk e' = trk_fill c (ex_trk e) o q;
  fe_dbg : c_dbg c = true -> order_margin c (ex_om e) (ex_pos e) = Done (bal (ex_acc e) ORDER_MARGIN);
  fe_acc : exists acc1 new_om,
    cp_case c (ex_acc e) q (lo_price o) (lo_side o) (fee_of c q (lo_price o) (ct_maker (c_spec c)))
      (ex_pos e) (ex_pos e') acc1 /\
    order_margin c (ex_om e') (ex_pos e') = Done new_om /\
    (c_dbg c = true -> new_om <= bal (ex_acc e) ORDER_MARGIN) /\
    ex_acc e' = if new_om <? bal (ex_acc e) ORDER_MARGIN
                then transfer_pure acc1 WALLET ORDER_MARGIN (bal (ex_acc e) ORDER_MARGIN - new_om)
                else acc1
}.

Lemma log_trade_done c t sd p q t' :
  log_trade c t sd p q = Done t' ->
  t' = match sd with
       | Buy => tracker_add t 0 0 0 0 0 0 (conv (c_kind c) (c_scale c) q p) 0
       | Sell => tracker_add t 0 0 0 0 0 0 0 (conv (c_kind c) (c_scale c) q p)
       end.
Proof. unfold log_trade; intros H; inv; tr. destruct sd; reflexivity. Qed.

Lemma fill_one_spec c u e ids o e' ids' o' :
  fill_one c u e ids o = Done (e', ids', o') ->
  exists f, limit_order_filled (c_dbg c) u o = Done f /\
  match f with
  | None => e' = e /\ ids' = ids /\ o' = o
  | Some q =>
      fill_effect c u e e' o q /\ o' = after_fill (c_scale c) o q /\
      ids' = ids ++ (if q =? lo_rem o then [lo_id o] else [])
  end.
Proof.
  unfold fill_one. intros H. apply bind_done in H as [f [Hf H]]. exists f; split; [exact Hf|].
  destruct f as [q|]; [|inv; auto].
  apply bind_done in H as [? [_ H]].
  apply bind_done in H as [? [Hdbg0 H]]. pose proof (debug_assert_m_done _ _ _ _ Hdbg0) as Hdbg; clear Hdbg0.
  apply bind_done in H as [[o1 filled] [Hfill H]].
  apply order_fill_spec in Hfill as (Hq & -> & ->).
  apply bind_done in H as [[e1 ids1] [He1 H]].
  apply bind_done in H as [value [Hv H]]. apply convert_from_done in Hv; subst value.
  apply bind_done in H as [[pos acc1] [Hcp H]].
  apply change_position_cases in Hcp.
  apply bind_done in H as [t2 [Ht H]]. apply log_trade_done in Ht.
  apply bind_done in H as [new_om [Hom H]].
  apply bind_done in H as [? [Hle H]]. pose proof (debug_assert_done _ _ _ _ Hle) as Hle'.
  apply bind_done in H as [e4 [He4 H]]. injection H as <- <- <-.
  cbn [lo_price lo_side after_fill set_trk set_acc set_pos ex_trk ex_acc ex_pos ex_om] in *.
  assert (Hshape : ex_pos e1 = ex_pos e /\ ex_acc e1 = ex_acc e /\ ex_ms e1 = ex_ms e /\
    ex_next_id e1 = ex_next_id e /\ ex_trig e1 = ex_trig e /\ ex_active e1 = ex_active e /\
    ex_trk e1 = log_limit_order_fill (ex_trk e) (q =? lo_rem o) /\
    ex_updates e1 = ex_updates e ++ [fill_event (c_scale c) o q (update_ts u)] /\
    ids1 = ids ++ (if q =? lo_rem o then [lo_id o] else []) /\
    if q =? lo_rem o then om_remove (ex_om e) (ByOrderId (lo_id o)) = Done (ex_om e1)
    else om_update (c_max c) (ex_om e) (after_fill (c_scale c) o q) = Done (ex_om e1, Ok tt)).
  { unfold fill_event. destruct (q =? lo_rem o) eqn:Eq.
    - inv. cbn. repeat (split; [reflexivity|]). assumption.
    - inv. destruct r as [[]|]; [|discriminate]. inv. cbn. rewrite app_nil_r.
      repeat (split; [reflexivity|]). assumption. }
  destruct Hshape as (Hpos & Hacc & Hms & Hnext & Htrig & Hact & Htrk & Hupd & Hids & Hom1).
  rewrite Hpos, Hacc in *.
  unfold computed_order_margin in *. cbn [set_trk set_acc set_pos ex_trk ex_acc ex_pos ex_om] in *.
  fold (bal (ex_acc e) ORDER_MARGIN) in *.
  assert (Hfin : ex_pos e4 = pos /\ ex_om e4 = ex_om e1 /\ ex_ms e4 = ex_ms e1 /\
    ex_next_id e4 = ex_next_id e1 /\ ex_trig e4 = ex_trig e1 /\ ex_active e4 = ex_active e1 /\
    ex_trk e4 = t2 /\ ex_updates e4 = ex_updates e1 /\
    ex_acc e4 = if new_om <? bal (ex_acc e) ORDER_MARGIN
                then transfer_pure acc1 WALLET ORDER_MARGIN (bal (ex_acc e) ORDER_MARGIN - new_om)
                else acc1).
  { destruct (new_om <? bal (ex_acc e) ORDER_MARGIN); inv; tr; cbn; repeat (split; [reflexivity|]); reflexivity. }
  destruct Hfin as (Hpos' & Hom' & Hms' & Hnext' & Htrig' & Hact' & Htrk' & Hupd' & Hacc').
  split; [|split; [reflexivity | exact Hids]].
  constructor; try congruence.
  - rewrite Hom'. exact Hom1.
  - rewrite Htrk', Ht, Htrk. unfold trk_fill. destruct (lo_side o); reflexivity.
  - intros E. specialize (Hdbg E). inv. rewrite Hd. f_equal. lia.
  - exists acc1, new_om. rewrite Hpos', Hom'. repeat split; try assumption.
    intros E; specialize (Hle' E); lia.
Qed.

(** ** The loop *)
Definition fillq (c : config) (u : market_update) (o : limit_order) : option Z :=
  match limit_order_filled (c_dbg c) u o with Done f => f | Panic _ => None end.

Definition refill (c : config) (u : market_update) (o : limit_order) : limit_order :=
  match fillq c u o with Some q => after_fill (c_scale c) o q | None => o end.

Definition fully (c : config) (u : market_update) (o : limit_order) : bool :=
  match fillq c u o with Some q => q =? lo_rem o | None => false end.

Definition event (c : config) (u : market_update) (o : limit_order) : list order_update :=
  match fillq c u o with Some q => [fill_event (c_scale c) o q (update_ts u)] | None => [] end.

(** Chain of fill effects over the orders in sequence. *)
Inductive fills (c : config) (u : market_update) : exchange -> list limit_order -> exchange -> Prop :=
| fills_nil e : fills c u e [] e
| fills_none e o l e' : fillq c u o = None -> fills c u e l e' -> fills c u e (o :: l) e'
| fills_some e o q e1 l e' :
    fillq c u o = Some q -> fill_effect c u e e1 o q -> fills c u e1 l e' -> fills c u e (o :: l) e'.

Lemma refill_id c u o : lo_id (refill c u o) = lo_id o.
Proof. unfold refill; destruct (fillq c u o); reflexivity. Qed.

Lemma refill_eq c u o : refill c u o = match fillq c u o with Some q => after_fill (c_scale c) o q | None => o end.
Proof. reflexivity. Qed.
Lemma fully_eq c u o : fully c u o = match fillq c u o with Some q => q =? lo_rem o | None => false end.
Proof. reflexivity. Qed.
Lemma event_eq c u o : event c u o = match fillq c u o with Some q => [fill_event (c_scale c) o q (update_ts u)] | None => [] end.
Proof. reflexivity. Qed.

Lemma fill_loop_spec c u todo e ids e' ids' todo' :
  fill_loop c u e ids todo = Done (e', ids', todo') ->
  (forall o, In o todo -> limit_order_filled (c_dbg c) u o = Done (fillq c u o)) /\
  fills c u e todo e' /\
  todo' = map (refill c u) todo /\
  ids' = ids ++ map lo_id (filter (fully c u) todo).
Proof.
  revert e ids e' ids' todo'. induction todo as [|o l IH]; intros e ids e' ids' todo' H; cbn [fill_loop] in H.
  - inv. cbn. rewrite app_nil_r. repeat split; try tauto. constructor.
  - apply bind_done in H as [[[e1 ids1] o1] [H1 H]].
    apply bind_done in H as [[[e2 ids2] l2] [H2 H]]. inv.
    apply IH in H2 as (Hf & Hl & -> & ->).
    apply fill_one_spec in H1 as [f [Hof Hcase]].
    assert (Hq : fillq c u o = f) by (unfold fillq; rewrite Hof; reflexivity).
    split; [intros x [<-|Hx]; [congruence | auto]|].
    cbn [map filter]. rewrite (refill_eq c u o), (fully_eq c u o), Hq. destruct f as [q|].
    + destruct Hcase as (He & -> & ->). split; [econstructor; eassumption|].
      split; [reflexivity|]. rewrite <- app_assoc. f_equal. destruct (q =? lo_rem o); reflexivity.
    + destruct Hcase as (-> & -> & ->). split; [constructor; assumption|]. split; reflexivity.
Qed.

(** Facts that survive the chain. *)
Lemma fills_stable c u e l e' :
  fills c u e l e' ->
  ex_ms e' = ex_ms e /\ ex_next_id e' = ex_next_id e /\ ex_trig e' = ex_trig e /\
  ex_active e' = ex_active e /\
  ex_updates e' = ex_updates e ++ flat_map (event c u) l.
Proof.
  induction 1 as [e|e o l e' Hn Hl IH|e o q e1 l e' Hq He Hl IH]; cbn.
  - rewrite app_nil_r. auto.
  - rewrite (event_eq c u o), Hn. exact IH.
  - destruct IH as (-> & -> & -> & -> & ->). destruct He. rewrite fe_ms0, fe_next0, fe_trig0, fe_active0, fe_updates0.
    rewrite (event_eq c u o), Hq. rewrite <- app_assoc. auto.
Qed.

Lemma fe_tpath c u e e' o q : fill_effect c u e e' o q -> tpath (ex_acc e) (ex_acc e').
Proof.
  intros H. destruct (fe_acc _ _ _ _ _ _ H) as (acc1 & new_om & Hcp & _ & _ & ->).
  apply cp_tpath in Hcp. destruct (Z.ltb_spec new_om (bal (ex_acc e) ORDER_MARGIN)); [|assumption].
  apply tp_step; [assumption | lia | discriminate].
Qed.

Lemma fills_tpath c u e l e' : fills c u e l e' -> tpath (ex_acc e) (ex_acc e').
Proof.
  induction 1; [apply tp_refl | assumption | eapply tpath_trans; [eapply fe_tpath; eassumption | assumption]].
Qed.

Lemma fills_pos_ok c u e l e' : fills c u e l e' -> pos_ok (ex_pos e) -> pos_ok (ex_pos e').
Proof.
  induction 1 as [|e o l e' Hn Hl IH|e o q e1 l e' Hq He Hl IH]; intros Hp; auto.
  apply IH. destruct (fe_acc _ _ _ _ _ _ He) as (acc1 & new_om & Hcp & _).
  eapply cp_pos_ok; eassumption.
Qed.

(** The tracked book follows the arena. *)
Lemma om_update_done cap b o b' :
  om_update cap b o = Done (b', Ok tt) -> 0 < lo_rem o /\
  ((get_by_id b (lo_id o) = None /\ b' = b ++ [o] /\ Z.of_nat (length b) < cap) \/
   (exists old, get_by_id b (lo_id o) = Some old /\ b' = replace_by_id b (lo_id o) o /\ lo_rem o < lo_rem old)).
Proof.
  unfold om_update, book_insert. intros H. apply bind_done in H as [? [Ha H]]. apply assert_done in Ha.
  split; [lia|]. destruct (get_by_id b (lo_id o)) as [old|] eqn:Eg.
  - inv. right. exists old. repeat split. lia.
  - destruct (Z.leb_spec cap (Z.of_nat (length b))); inv. left. auto.
Qed.

Lemma om_update_err cap b o b' err :
  om_update cap b o = Done (b', Err err) ->
  b' = b /\ err = EMaxNumberOfActiveOrders /\ get_by_id b (lo_id o) = None /\ cap <= Z.of_nat (length b).
Proof.
  unfold om_update, book_insert. intros H. apply bind_done in H as [? [Ha H]].
  destruct (get_by_id b (lo_id o)) as [old|] eqn:Eg; [inv|].
  destruct (Z.leb_spec cap (Z.of_nat (length b))); inv. auto.
Qed.

Lemma om_remove_id_done b i b' :
  om_remove b (ByOrderId i) = Done b' -> exists o, remove_by_order_id b i = Some (o, b').
Proof.
  unfold om_remove. destruct (remove_by_order_id b i) as [[o b1]|]; intros H; inv. eauto.
Qed.

Lemma remove_executed_ids l b b1 :
  NoDup (ids b) -> remove_executed l b = Done b1 ->
  forall i, In i (ids b1) <-> In i (ids b) /\ ~ In i l.
Proof.
  intros Hn H i. destruct (remove_executed_spec _ _ _ Hn H) as [_ Hx].
  unfold ids. rewrite !in_map_iff. split.
  - intros [x [<- Hin]]. apply Hx in Hin as [Hin Hni]. split; [eauto | exact Hni].
  - intros [[x [<- Hin]] Hni]. exists x. split; [reflexivity|]. apply Hx; auto.
Qed.

Lemma fills_book c u e todo e' done_ l :
  fills c u e todo e' ->
  NoDup (ids (done_ ++ todo)) ->
  (forall i, In i l -> In i (ids done_)) ->
  remove_executed l (done_ ++ todo) = Done (ex_om e) ->
  remove_executed (l ++ map lo_id (filter (fully c u) todo)) (done_ ++ map (refill c u) todo)
  = Done (ex_om e').
Proof.
  intros H. revert done_ l. induction H as [e|e o t e' Hq Hl IH|e o q e1 t e' Hq He Hl IH]; intros d l Hn Hin Hr.
  - cbn. rewrite !app_nil_r. rewrite app_nil_r in Hr. exact Hr.
  - cbn [map filter]. rewrite (refill_eq c u o), (fully_eq c u o), Hq.
    replace (d ++ o :: map (refill c u) t) with ((d ++ [o]) ++ map (refill c u) t) by (rewrite <- app_assoc; reflexivity).
    apply IH.
    + rewrite <- app_assoc; exact Hn.
    + intros i Hi. rewrite ids_app. apply in_or_app; left; auto.
    + rewrite <- app_assoc; exact Hr.
  - assert (Hno : NoDup (ids d ++ lo_id o :: ids t)) by (unfold ids in *; rewrite map_app in Hn; exact Hn).
    assert (Hod : ~ In (lo_id o) (ids d)).
    { apply NoDup_remove_2 in Hno. intros Hx; apply Hno, in_or_app; auto. }
    assert (Hot : ~ In (lo_id o) (ids t)).
    { apply NoDup_remove_2 in Hno. intros Hx; apply Hno, in_or_app; auto. }
    assert (Hol : ~ In (lo_id o) l) by auto.
    set (o' := after_fill (c_scale c) o q).
    assert (Hrep : map (upd (lo_id o) o') (d ++ o :: t) = d ++ o' :: t).
    { rewrite map_app. cbn [map]. rewrite !upd_notin by assumption. unfold upd.
      rewrite Z.eqb_refl. reflexivity. }
    assert (Hr' : remove_executed l (d ++ o' :: t) = Done (map (upd (lo_id o) o') (ex_om e))).
    { rewrite <- Hrep. apply remove_executed_upd; [reflexivity | exact Hr]. }
    pose proof (remove_executed_spec _ _ _ Hn Hr) as [HnOm HxOm].
    assert (Hoin : In o (ex_om e)).
    { apply HxOm. split; [apply in_or_app; right; left; reflexivity | exact Hol]. }
    assert (Hr1 : remove_executed (l ++ (if q =? lo_rem o then [lo_id o] else [])) (d ++ o' :: t) = Done (ex_om e1)).
    { pose proof (fe_om _ _ _ _ _ _ He) as Hom. destruct (q =? lo_rem o).
      - rewrite remove_executed_app, Hr'. cbn [bind remove_executed].
        apply om_remove_id_done in Hom as [x Hx].
        rewrite (remove_id_upd_same (ex_om e) (lo_id o) o' x (ex_om e1) HnOm eq_refl Hx). reflexivity.
      - rewrite app_nil_r, Hr'. f_equal.
        apply om_update_done in Hom as [_ [(Hg & _)|(old & Hg & -> & _)]].
        + exfalso. apply get_by_id_none in Hg. apply Hg. cbn. apply in_map; exact Hoin.
        + rewrite replace_by_id_map by exact HnOm. reflexivity. }
    cbn [map filter]. rewrite (refill_eq c u o), (fully_eq c u o), Hq. fold o'.
    replace (d ++ o' :: map (refill c u) t) with ((d ++ [o']) ++ map (refill c u) t) by (rewrite <- app_assoc; reflexivity).
    replace (l ++ map lo_id (if q =? lo_rem o then o :: filter (fully c u) t else filter (fully c u) t))
      with ((l ++ (if q =? lo_rem o then [lo_id o] else [])) ++ map lo_id (filter (fully c u) t))
      by (destruct (q =? lo_rem o); rewrite <- app_assoc; reflexivity).
    apply IH.
    + rewrite <- app_assoc. cbn [app]. unfold ids in *. rewrite map_app in *. cbn [map] in *. exact Hn.
    + intros i Hi. rewrite ids_app. apply in_app_or in Hi as [Hi|Hi]; apply in_or_app; [left; auto|].
      right. destruct (q =? lo_rem o); [exact Hi | contradiction].
    + rewrite <- app_assoc. exact Hr1.
Qed.
