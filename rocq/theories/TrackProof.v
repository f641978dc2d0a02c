(** The tracker follows the history. *)
From Coq Require Import Permutation.
From Verif Require Import ProofBase BookLemmas StepLemmas FillLemmas OpLemmas Inv Spec SpecTrack BookProof OrderProof LedgerProof FeeProof.

(** ** Counters *)
Lemma plus_0 t : plus t t 0 0 0 0 0 0 0 0.
Proof. unfold plus. repeat split; lia. Qed.

Definition buy_of (sd : side) (v : Z) : Z := match sd with Buy => v | Sell => 0 end.
Definition sell_of (sd : side) (v : Z) : Z := match sd with Buy => 0 | Sell => v end.
Definition is_full (u : order_update) : bool := match u with FullyFilled _ => true | _ => false end.

Lemma volume_app c sd fs f : volume c sd (fs ++ [f]) = volume c sd fs +
  (if side_eq_dec (f_side f) sd then value (c_kind c) (c_scale c) (f_qty f) (f_price f) else 0).
Proof.
  unfold volume. rewrite filter_app, map_app, sumZ_app. cbn [filter]. destruct (side_eq_dec (f_side f) sd); cbn; lia.
Qed.

Lemma fills_plus c u l e e' w :
  fills c u e l e' -> NoDup (ids l) -> (forall o, In o l -> w_seen w (lo_id o) = lo_filled_qty o) ->
  plus (ex_trk e) (ex_trk e') 0 0 (Z.of_nat (length (flat_map (event c u) l))) (Z.of_nat (length (filter is_full (flat_map (event c u) l)))) 0 0
    (volume c Buy (w_fills (fold_left (watch_update c) (flat_map (event c u) l) w)) - volume c Buy (w_fills w))
    (volume c Sell (w_fills (fold_left (watch_update c) (flat_map (event c u) l) w)) - volume c Sell (w_fills w)).
Proof.
  intros H. revert w. induction H as [e|e o l e' Hq Hl IH|e o q e1 l e' Hq He Hl IH]; intros w Hn Hs.
  - cbn. unfold plus. repeat split; lia.
  - cbn [flat_map]. rewrite (event_eq c u o), Hq. cbn [app]. inversion Hn; subst. apply IH; [assumption | intros; apply Hs; right; assumption].
  - cbn [flat_map]. rewrite (event_eq c u o), Hq. cbn [app fold_left]. inversion Hn as [|? ? Hno Hnl]; subst.
    destruct (watch_event c w (c_scale c) o q (update_ts u) (Hs o (or_introl eq_refl))) as [Hf1 Hs1].
    specialize (IH (watch_update c w (fill_event (c_scale c) o q (update_ts u))) Hnl).
    assert (Hs' : forall x, In x l -> w_seen (watch_update c w (fill_event (c_scale c) o q (update_ts u))) (lo_id x) = lo_filled_qty x).
    { intros x Hx. rewrite Hs1. destruct (Z.eqb_spec (lo_id x) (lo_id o)) as [E|_]; [|apply Hs; right; exact Hx].
      exfalso. apply Hno. rewrite <- E. apply in_map; exact Hx. }
    specialize (IH Hs'). rewrite (fe_trk _ _ _ _ _ _ He) in IH. rewrite Hf1, !volume_app in IH.
    unfold fill_of in IH. cbn [f_side f_qty f_price] in IH. rewrite !value_conv in IH.
    cbn [filter]. unfold plus in *. unfold trk_fill in IH.
    assert (Ef : is_full (fill_event (c_scale c) o q (update_ts u)) = (q =? lo_rem o)) by (unfold fill_event; destruct (q =? lo_rem o); reflexivity).
    rewrite Ef. destruct (lo_side o); cbn in IH; destruct (q =? lo_rem o); cbn [length] in *; rewrite ?Nat2Z.inj_succ; lia.
Qed.

Lemma plus_trans t t1 t2 a b n m s f v w a' b' n' m' s' f' v' w' :
  plus t t1 a b n m s f v w -> plus t1 t2 a' b' n' m' s' f' v' w' ->
  plus t t2 (a + a') (b + b') (n + n') (m + m') (s + s') (f + f') (v + v') (w + w').
Proof. unfold plus. intros. lia. Qed.
Lemma pre_check_plus c e u : plus (ex_trk e) (ex_trk (pre_check c e u)) 0 0 0 0 0 0 0 0.
Proof. unfold pre_check. cbn [set_ms set_trk ex_trig]. destruct (should_trigger _ _) as [tr []]; unfold plus; cbn; repeat split; lia. Qed.
Lemma market_plus c e e' o :
  market_effect c e e' o -> forall fs,
  let f := {| f_side := nm_side o; f_qty := nm_qty o; f_price := quote_price (ex_ms e) (nm_side o); f_rate := ct_taker (c_spec c) |} in
  plus (ex_trk e) (ex_trk e') 0 0 0 0 1 1 (volume c Buy (fs ++ [f]) - volume c Buy fs) (volume c Sell (fs ++ [f]) - volume c Sell fs).
Proof.
  intros M fs. cbv zeta. rewrite (me_trk _ _ _ _ M), !volume_app. cbn [f_side f_qty f_price]. rewrite !value_conv.
  unfold plus, trk_market. destruct (nm_side o); cbn; repeat split; lia.
Qed.
Lemma submit_plus c e o e' r : submit_limit_order c e o = Done (e', r) ->
  plus (ex_trk e) (ex_trk e') 1 0 0 0 0 0 0 0 /\
  match r with Err EOrderNoLongerActive | Err (EOrderIdNotFound _) | Err EAmendQtyAlreadyFilled => False | _ => True end.
Proof.
  intros H. apply submit_limit_spec in H as [(err & -> & _ & -> & Hr) | (_ & _ & _ & _ & a & Ha & ->)].
  - split; [unfold plus; cbn; repeat split; lia|]. destruct Hr as [(oe & -> & _)|(_ & _ & _ & [(re & -> & _)|(-> & _)])]; exact Logic.I.
  - apply append_spec in Ha. destruct a as [[]|err].
    + rewrite (ae_trk _ _ _ _ Ha). split; [unfold plus; cbn; repeat split; lia | exact Logic.I].
    + destruct Ha as (-> & [(-> & _) | (om' & r' & _ & -> & _)]); (split; [unfold plus; cbn; repeat split; lia | exact Logic.I]).
Qed.
Lemma cancel_plus c e e' b o : cancel_effect c e e' b o -> plus (ex_trk e) (ex_trk e') 0 1 0 0 0 0 0 0.
Proof. intros C. rewrite (ce_trk _ _ _ _ _ C). unfold plus; cbn; repeat split; lia. Qed.
Lemma limit_new_formed sd p q uid : match limit_new sd p q uid with Ok _ => well_formed p q = true | Err _ => well_formed p q = false end.
Proof. unfold limit_new, well_formed. destruct (Z.leb_spec p 0), (Z.leb_spec q 0); cbn; lia. Qed.

Lemma step_plus c e o e' r w :
  is_check o = false -> Inv c e -> WInv c e w -> step c e o = Done (e', r) ->
  let h := (o, r) in let w' := watch_call c w h in
  plus (ex_trk e) (ex_trk e') (limit_submitted h) (limit_cancelled h) (limit_fills h) (limit_completed h)
    (market_submitted h) (market_fills h)
    (volume c Buy (w_fills w') - volume c Buy (w_fills w)) (volume c Sell (w_fills w') - volume c Sell (w_fills w)).
Proof.
  intros Hck I HW H. cbv zeta. destruct o as [ru|sd q uid|sd p q uid|b|id sd p q uid|ru]; cbn [step] in H.
  - apply bind_done in H as [u [Hu H]]. apply map_out_done in H as (r0 & H & ->).
    apply update_state_spec in H as [_ H]. cbv zeta in H.
    pose proof (pre_check_winv _ _ _ _ _ _ HW Hu) as HW1. pose proof (pre_check_inv c e u I) as I0.
    assert (E : w_fills (watch_quote w ru) = w_fills w) by (unfold watch_quote; destruct (quote_of ru) as [[? ?]|]; reflexivity).
    pose proof (pre_check_plus c e u) as P0.
    destruct (check_maintenance_margin _ _ _ _) as [[]|re] eqn:Ec.
    + destruct H as [-> H]. cbn [map_result watch_call limit_submitted limit_cancelled limit_fills limit_completed market_submitted market_fills liquidations].
      apply check_active_spec in H as [(_ & ->) | (_ & e1 & act & _ & _ & Hf & Hr & -> & _)].
      * cbn [set_updates ex_updates ex_trk fold_left length filter]. rewrite E. unfold plus in *. lia.
      * destruct (fills_stable _ _ _ _ _ Hf) as (_ & _ & _ & _ & Hupd).
        cbn [set_updates ex_updates app] in Hupd. cbn [set_active ex_updates ex_trk]. rewrite Hupd.
        pose proof (fills_plus c u _ _ _ (watch_quote w ru) Hf (inv_nodup _ _ I0) (wi_seen _ _ _ HW1)) as P1.
        rewrite E in P1. cbn [set_updates ex_trk] in P1. exact (plus_trans _ _ _ _ _ _ _ _ _ _ _ _ _ _ _ _ _ _ _ P0 P1).
    + destruct H as [-> H]. apply maintenance_err in Ec; subst re. cbn [map_result watch_call limit_submitted limit_cancelled limit_fills limit_completed market_submitted market_fills liquidations].
      apply liquidate_spec in H as (lo & Hme & _ & Hlo).
      rewrite (liquidation_fill_eq _ _ _ _ _ I0 HW1 Hme Hlo). cbn [watch_add w_fills]. rewrite E.
      exact (plus_trans _ _ _ _ _ _ _ _ _ _ _ _ _ _ _ _ _ _ _ P0 (market_plus _ _ _ _ Hme (w_fills w))).
  - unfold market_new in H. cbn [limit_submitted limit_cancelled limit_fills limit_completed market_submitted].
    destruct (Z.leb_spec q 0).
    + inv. cbn [watch_call market_fills liquidations]. destruct (Z.ltb_spec 0 q); [lia|]. rewrite !Z.sub_diag. apply plus_0.
    + destruct (Z.ltb_spec 0 q); [|lia]. apply map_out_done in H as (r0 & H & ->). apply submit_market_spec in H. destruct r0 as [f|err].
      * destruct H as [-> H]. cbn [map_result watch_call market_into_filled fm_side fm_filled fm_avg watch_add w_fills market_fills liquidations].
        exact (market_plus _ _ _ _ H (w_fills w)).
      * destruct H as (_ & -> & _). cbn [map_result watch_call market_fills liquidations]. unfold plus; cbn; repeat split; lia.
  - assert (E : w_fills (watch_call c w (OpLimit sd p q uid, r)) = w_fills w) by (cbn [watch_call]; destruct r as [[]|]; reflexivity). rewrite E, !Z.sub_diag.
    cbn [limit_submitted limit_cancelled limit_fills limit_completed market_submitted market_fills liquidations].
    pose proof (limit_new_formed sd p q uid) as F. destruct (limit_new sd p q uid); rewrite F.
    + apply map_out_done in H as (rr & H & _). apply submit_plus in H as [H _]. exact H.
    + inv. apply plus_0.
  - assert (E : w_fills (watch_call c w (OpCancel b, r)) = w_fills w) by (cbn [watch_call]; destruct r as [[]|]; reflexivity). rewrite E, !Z.sub_diag.
    cbn [limit_submitted limit_cancelled limit_fills limit_completed market_submitted market_fills liquidations].
    apply map_out_done in H as (rr & H & ->). apply cancel_spec in H as [_ H]. destruct rr; cbn [map_result].
    + exact (cancel_plus _ _ _ _ _ H).
    + destruct H as (-> & _). apply plus_0.
  - assert (E : w_fills (watch_call c w (OpAmend id sd p q uid, r)) = w_fills w) by (cbn [watch_call]; destruct r as [[]|]; reflexivity). rewrite E, !Z.sub_diag.
    cbn [limit_submitted limit_cancelled limit_fills limit_completed market_submitted market_fills liquidations].
    pose proof (limit_new_formed sd p q uid) as F. destruct (limit_new sd p q uid); rewrite F.
    + apply map_out_done in H as (rr & H & ->). apply amend_spec in H. destruct (get_by_id (ex_active e) id).
      * cbv zeta in H. destruct H as [_ H]. destruct (_ <=? 0).
        -- destruct H as [[x C] ->]. exact (cancel_plus _ _ _ _ _ C).
        -- destruct H as (e1 & x & C & H). apply submit_plus in H as [P Hr].
           pose proof (plus_trans _ _ _ _ _ _ _ _ _ _ _ _ _ _ _ _ _ _ _ (cancel_plus _ _ _ _ _ C) P) as Q.
           destruct rr as [|[]]; try contradiction; exact Q.
      * destruct H as [-> ->]. cbn [map_result]. destruct (_ <? _); apply plus_0.
    + inv. apply plus_0.
  - discriminate.
Qed.

(** ** Histories *)
Lemma tally_cons f h l : tally f (h :: l) = f h + tally f l.
Proof. reflexivity. Qed.
Lemma run_tally c : c_max c <= 10000 -> forall ops e e' outs w,
  no_check ops -> Inv c e -> WInv c e w -> run c e ops = Done (e', outs) ->
  let h := combine ops outs in let w' := fold_left (watch_call c) h w in
  plus (ex_trk e) (ex_trk e') (tally limit_submitted h) (tally limit_cancelled h) (tally limit_fills h) (tally limit_completed h)
    (tally market_submitted h) (tally market_fills h)
    (volume c Buy (w_fills w') - volume c Buy (w_fills w)) (volume c Sell (w_fills w') - volume c Sell (w_fills w)).
Proof.
  intros Hm ops. induction ops as [|o ops IH]; intros e e' outs w Hck I HW H; cbn [run] in H.
  - inv. cbv zeta. cbn [combine fold_left]. rewrite !Z.sub_diag. apply plus_0.
  - apply bind_done in H as [[e1 r] [H1 H]]. apply bind_done in H as [[e2 rs] [H2 H]]. inv. cbn [combine fold_left]. cbv zeta.
    assert (Ho : is_check o = false) by (apply Hck; left; reflexivity).
    pose proof (step_plus _ _ _ _ _ _ Ho I HW H1) as P1. cbv zeta in P1.
    assert (P2 := IH e1 e' rs (watch_call c w (o, r)) (fun x Hx => Hck x (or_intror Hx)) (step_inv _ _ _ _ _ Hm I H1) (step_winv _ _ _ _ _ _ Hm Ho I HW H1) H2).
    cbv zeta in P2. subst w' h. cbn [combine fold_left]. rewrite !tally_cons. unfold plus in *. lia.
Qed.

Lemma history_tally c ops e outs :
  0 <= c_max c <= 10000 -> no_check ops -> history c ops e outs ->
  tallied c (ex_trk e) (combine ops outs) (reported_fills c ops outs).
Proof.
  intros Hm Hck (e0 & Hi & Hr). pose proof (init_inv c e0 ltac:(lia) Hi) as I. pose proof (init_winv _ _ Hi) as W.
  pose proof (run_tally c ltac:(lia) ops e0 e outs watch_start Hck I W Hr) as P. cbv zeta in P.
  fold (watched c ops outs) in P. fold (reported_fills c ops outs) in P.
  apply bind_done in Hi as [t [Ht Hi]]. unfold tracker_new in Ht. inv. unfold exchange_new in Hi. apply bind_done in Hi as [ac0 [_ Hi]]. inv.
  unfold plus in P. cbn in P. change (volume c Buy []) with 0 in P. change (volume c Sell []) with 0 in P. constructor; lia.
Qed.

(** ** Every call *)
Lemma grows_refl t : grows t t.
Proof. exists 0, 0, 0, 0, 0, 0, 0, 0. split; [apply plus_0 | lia]. Qed.
Lemma fills_grow c u l e e' : 0 < c_scale c -> fills c u e l e' -> (forall o, In o l -> 0 < lo_price o) ->
  exists n m v w, plus (ex_trk e) (ex_trk e') 0 0 n m 0 0 v w /\ 0 <= m <= n /\ 0 <= v /\ 0 <= w.
Proof.
  intros Hs H. induction H as [e|e o l e' Hq Hl IH|e o q e1 l e' Hq He Hl IH]; intros Hp.
  - exists 0, 0, 0, 0. split; [apply plus_0 | lia].
  - apply IH. intros; apply Hp; right; assumption.
  - destruct IH as (n & m & v & w & P & ?); [intros; apply Hp; right; assumption|].
    pose proof (fe_trk _ _ _ _ _ _ He) as E. pose proof (fe_q _ _ _ _ _ _ He) as Hq'. specialize (Hp o (or_introl eq_refl)).
    assert (Hc : 0 <= conv (c_kind c) (c_scale c) q (lo_price o)) by (apply conv_nonneg; lia).
    exists (n + 1), (m + if q =? lo_rem o then 1 else 0), (v + buy_of (lo_side o) (conv (c_kind c) (c_scale c) q (lo_price o))),
      (w + sell_of (lo_side o) (conv (c_kind c) (c_scale c) q (lo_price o))).
    unfold plus in *. rewrite E in P. unfold trk_fill in P. unfold buy_of, sell_of. destruct (lo_side o), (q =? lo_rem o); cbn in P; (split; [|lia]); lia.
Qed.
Lemma market_grow c e e' o : 0 < c_scale c -> market_effect c e e' o -> exists v w, plus (ex_trk e) (ex_trk e') 0 0 0 0 1 1 v w /\ 0 <= v /\ 0 <= w.
Proof.
  intros Hs M. pose proof (me_trk _ _ _ _ M) as E. pose proof (me_qty _ _ _ _ M) as Hq. pose proof (me_price _ _ _ _ M) as Hp.
  assert (Hc : 0 <= conv (c_kind c) (c_scale c) (nm_qty o) (quote_price (ex_ms e) (nm_side o))) by (apply conv_nonneg; lia).
  exists (buy_of (nm_side o) (conv (c_kind c) (c_scale c) (nm_qty o) (quote_price (ex_ms e) (nm_side o)))),
    (sell_of (nm_side o) (conv (c_kind c) (c_scale c) (nm_qty o) (quote_price (ex_ms e) (nm_side o)))).
  rewrite E. unfold plus, trk_market, buy_of, sell_of. destruct (nm_side o); cbn in *; (split; [repeat split; lia | lia]).
Qed.
Lemma check_grow c e u e' : 0 < c_scale c -> Inv c e -> check_active_orders c e u = Done e' ->
  exists n m v w, plus (ex_trk e) (ex_trk e') 0 0 n m 0 0 v w /\ 0 <= m <= n /\ 0 <= v /\ 0 <= w.
Proof.
  intros Hs I H. apply check_active_spec in H as [(_ & ->) | (_ & e1 & act & _ & _ & Hf & Hr & -> & _)].
  - exists 0, 0, 0, 0. split; [apply plus_0 | lia].
  - apply fills_grow in Hf; [exact Hf | exact Hs|]. intros o Ho. apply (inv_ok _ _ I) in Ho. apply Ho.
Qed.
Lemma step_grows c e o e' r : 0 < c_scale c -> Inv c e -> step c e o = Done (e', r) -> grows (ex_trk e) (ex_trk e').
Proof.
  intros Hs I H. destruct o as [ru|sd q uid|sd p q uid|b|id sd p q uid|ru]; cbn [step] in H.
  - apply bind_done in H as [u [Hu H]]. apply map_out_done in H as (r0 & H & ->).
    apply update_state_spec in H as [_ H]. cbv zeta in H. pose proof (pre_check_inv c e u I) as I0.
    pose proof (pre_check_plus c e u) as P0.
    destruct (check_maintenance_margin _ _ _ _) as [[]|re] eqn:Ec; destruct H as [-> H].
    + apply check_grow in H as (n & m & v & w & P & ?); [|assumption..]. exists 0, 0, n, m, 0, 0, v, w. split; [|lia].
      exact (plus_trans _ _ _ _ _ _ _ _ _ _ _ _ _ _ _ _ _ _ _ P0 P).
    + apply liquidate_spec in H as (lo & Hme & _ & _). apply market_grow in Hme as (v & w & P & ?); [|assumption].
      exists 0, 0, 0, 0, 1, 1, v, w. split; [|lia]. exact (plus_trans _ _ _ _ _ _ _ _ _ _ _ _ _ _ _ _ _ _ _ P0 P).
  - destruct (market_new sd q uid); [|inv; apply grows_refl].
    apply map_out_done in H as (r0 & H & ->). apply submit_market_spec in H. destruct r0 as [f|err].
    + destruct H as [_ Hme]. apply market_grow in Hme as (v & w & P & ?); [|assumption]. exists 0, 0, 0, 0, 1, 1, v, w. split; [exact P | lia].
    + destruct H as (_ & -> & _). exists 0, 0, 0, 0, 1, 0, 0, 0. split; [unfold plus; cbn; repeat split; lia | lia].
  - destruct (limit_new sd p q uid); [|inv; apply grows_refl].
    apply map_out_done in H as (rr & H & _). apply submit_plus in H as [H _]. exists 1, 0, 0, 0, 0, 0, 0, 0. split; [exact H | lia].
  - apply map_out_done in H as (rr & H & ->). apply cancel_spec in H as [_ H]. destruct rr.
    + exists 0, 1, 0, 0, 0, 0, 0, 0. split; [exact (cancel_plus _ _ _ _ _ H) | lia].
    + destruct H as (-> & _). apply grows_refl.
  - destruct (limit_new sd p q uid); [|inv; apply grows_refl].
    apply map_out_done in H as (rr & H & ->). apply amend_spec in H. destruct (get_by_id (ex_active e) id).
    + cbv zeta in H. destruct H as [_ H]. destruct (_ <=? 0).
      * destruct H as [[x C] ->]. exists 0, 1, 0, 0, 0, 0, 0, 0. split; [exact (cancel_plus _ _ _ _ _ C) | lia].
      * destruct H as (e1 & x & C & H). apply submit_plus in H as [P Hr]. exists 1, 1, 0, 0, 0, 0, 0, 0. split; [|lia].
        exact (plus_trans _ _ _ _ _ _ _ _ _ _ _ _ _ _ _ _ _ _ _ (cancel_plus _ _ _ _ _ C) P).
    + destruct H as [-> _]. apply grows_refl.
  - apply bind_done in H as [u [Hu H]]. apply bind_done in H as [e1 [H Hd]]. injection Hd as <- _.
    apply check_grow in H as (n & m & v & w & P & ?); [|assumption..]. exists 0, 0, n, m, 0, 0, v, w. split; [exact P | lia].
Qed.
