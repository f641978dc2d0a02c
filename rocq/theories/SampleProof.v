(** Sampling of returns. *)
From Verif Require Import ProofBase BookLemmas StepLemmas FillLemmas OpLemmas Inv Spec SpecTrack LedgerProof.

Lemma update_time_built d ru u : build_update d ru = Done u -> update_ts u = update_time ru.
Proof.
  destruct ru as [b|t|k|l b f]; cbn [build_update]; intros H; try (injection H as <-; reflexivity).
  apply bind_done in H as [sc [H Hd]]. injection Hd as <-. cbn [update_ts update_time]. unfold smart_candle_new in H. destruct l as [|t0 l]; [discriminate|].
  repeat (apply bind_done in H as [? [_ H]]). injection H as <-. cbn [sc_ts].
  assert (G : forall (l : list trade) y d0, last (l ++ [y]) d0 = y) by (intros; apply last_last).
  destruct (rev (t0 :: l)) as [|y r] eqn:E.
  - apply (f_equal (@length trade)) in E. rewrite rev_length in E. discriminate.
  - assert (E' : t0 :: l = rev r ++ [y]) by (rewrite <- (rev_involutive (t0 :: l)), E; reflexivity). change (tr_ts (last (t0 :: l) t0) = tr_ts y). rewrite E', G. reflexivity.
Qed.

Lemma quiet_refl e : quiet e e.
Proof. split; reflexivity. Qed.
Lemma quiet_trans a b c : quiet a b -> quiet b c -> quiet a c.
Proof. unfold quiet. intros [H1 H2] [H3 H4]. split; congruence. Qed.
Lemma fills_quiet c u l e e' : fills c u e l e' -> quiet e e'.
Proof.
  induction 1 as [e|e o l e' Hq Hl IH|e o q e1 l e' Hq He Hl IH]; [apply quiet_refl | exact IH|].
  eapply quiet_trans; [|exact IH]. split; [apply (fe_trig _ _ _ _ _ _ He)|]. rewrite (fe_trk _ _ _ _ _ _ He). unfold trk_fill. destruct (lo_side o); reflexivity.
Qed.
Lemma market_quiet c e e' o : market_effect c e e' o -> quiet e e'.
Proof. intros M. split; [apply (me_trig _ _ _ _ M)|]. rewrite (me_trk _ _ _ _ M). unfold trk_market. destruct (nm_side o); reflexivity. Qed.
Lemma check_quiet c e u e' : check_active_orders c e u = Done e' -> quiet e e'.
Proof.
  intros H. apply check_active_spec in H as [(_ & ->) | (_ & e1 & act & _ & _ & Hf & _ & -> & _)]; [split; reflexivity|].
  apply fills_quiet in Hf. exact Hf.
Qed.
Lemma submit_quiet c e o e' r : submit_limit_order c e o = Done (e', r) -> quiet e e'.
Proof.
  intros H. apply submit_limit_spec in H as [(err & -> & (_ & _ & _ & _ & _ & Ht & _) & E & Hr) | (_ & _ & _ & _ & a & Ha & ->)].
  - split; [exact Ht | rewrite E; reflexivity].
  - apply append_spec in Ha. destruct a as [[]|err].
    + split; [rewrite (ae_trig _ _ _ _ Ha); reflexivity | rewrite (ae_trk _ _ _ _ Ha); reflexivity].
    + destruct Ha as (-> & [(-> & _) | (om' & r' & _ & -> & _)]); split; reflexivity.
Qed.
Lemma cancel_quiet c e e' b o : cancel_effect c e e' b o -> quiet e e'.
Proof. intros C. split; [apply (ce_trig _ _ _ _ _ C)|]. rewrite (ce_trk _ _ _ _ _ C). reflexivity. Qed.

Lemma step_samples c e o e' r : step c e o = Done (e', r) ->
  match o with
  | OpUpdate ru => if due_sample e (update_time ru) then took_sample e e' (update_time ru) else quiet e e'
  | _ => quiet e e'
  end.
Proof.
  intros H. destruct o as [ru|sd q uid|sd p q uid|b|id sd p q uid|ru]; cbn [step] in H.
  - apply bind_done in H as [u [Hu H]]. apply map_out_done in H as (r0 & H & ->).
    apply update_state_spec in H as [_ H]. cbv zeta in H.
    assert (Q : quiet (pre_check c e u) e').
    { destruct (check_maintenance_margin _ _ _ _) as [[]|re] eqn:Ec; destruct H as [-> H].
      - exact (check_quiet _ _ _ _ H).
      - apply liquidate_spec in H as (lo & Hme & _). exact (market_quiet _ _ _ _ Hme). }
    destruct Q as [Q1 Q2]. rewrite <- (update_time_built _ _ _ Hu). unfold due_sample, took_sample, quiet. rewrite Q1, Q2. clear Q1 Q2.
    unfold pre_check, should_trigger. cbn [set_ms set_trk ex_trig].
    destruct (ex_trig e) as [iv la []]; cbn [tg_init tg_last tg_interval orb].
    { split; [reflexivity|]. cbn. f_equal. unfold balances_sum, wealth_of, wallet_of, order_margin_of, position_margin_of; cbn; lia. }
    destruct (la + iv <=? update_ts u); (split; [reflexivity|]); [|reflexivity]. cbn. f_equal. unfold balances_sum, wealth_of, wallet_of, order_margin_of, position_margin_of; cbn; lia.
  - destruct (market_new sd q uid); [|inv; apply quiet_refl].
    apply map_out_done in H as (r0 & H & ->). apply submit_market_spec in H. destruct r0 as [f|err].
    + destruct H as [_ Hme]. exact (market_quiet _ _ _ _ Hme).
    + destruct H as ((_ & _ & _ & _ & _ & Ht & _) & E & _). split; [exact Ht | rewrite E; reflexivity].
  - destruct (limit_new sd p q uid); [|inv; apply quiet_refl].
    apply map_out_done in H as (rr & H & _). exact (submit_quiet _ _ _ _ _ H).
  - apply map_out_done in H as (rr & H & ->). apply cancel_spec in H as [_ H]. destruct rr.
    + exact (cancel_quiet _ _ _ _ _ H).
    + destruct H as (-> & _). apply quiet_refl.
  - destruct (limit_new sd p q uid); [|inv; apply quiet_refl].
    apply map_out_done in H as (rr & H & ->). apply amend_spec in H. destruct (get_by_id (ex_active e) id).
    + cbv zeta in H. destruct H as [_ H]. destruct (_ <=? 0).
      * destruct H as [[x C] ->]. exact (cancel_quiet _ _ _ _ _ C).
      * destruct H as (e1 & x & C & H). eapply quiet_trans; [exact (cancel_quiet _ _ _ _ _ C) | exact (submit_quiet _ _ _ _ _ H)].
    + destruct H as [-> _]. apply quiet_refl.
  - apply bind_done in H as [u [Hu H]]. apply bind_done in H as [e1 [H Hd]]. injection Hd as <- _. exact (check_quiet _ _ _ _ H).
Qed.

(** ** Histories *)
Lemma run_samples c : forall ops e e' outs, tg_init (ex_trig e) = false -> run c e ops = Done (e', outs) ->
  let more := instants_after (tg_interval (ex_trig e)) (tg_last (ex_trig e)) (update_times ops) in
  (length (tk_samples (ex_trk e')) = length (tk_samples (ex_trk e)) + length more)%nat /\
  tg_last (ex_trig e') = last more (tg_last (ex_trig e)) /\ tg_init (ex_trig e') = false /\ tg_interval (ex_trig e') = tg_interval (ex_trig e).
Proof.
  induction ops as [|o ops IH]; intros e e' outs Hi H; cbn [run] in H; cbv zeta.
  - inv. cbn. repeat split; [lia | assumption].
  - apply bind_done in H as [[e1 r] [H1 H]]. apply bind_done in H as [[e2 rs] [H2 H]]. inv.
    apply step_samples in H1. assert (K : forall e1, quiet e e1 -> tg_init (ex_trig e1) = false) by (intros x [-> _]; exact Hi).
    assert (S : quiet e e1 -> run c e1 ops = Done (e', rs) ->
      let more := instants_after (tg_interval (ex_trig e)) (tg_last (ex_trig e)) (update_times ops) in
      (length (tk_samples (ex_trk e')) = length (tk_samples (ex_trk e)) + length more)%nat /\
      tg_last (ex_trig e') = last more (tg_last (ex_trig e)) /\ tg_init (ex_trig e') = false /\ tg_interval (ex_trig e') = tg_interval (ex_trig e)).
    { intros Q R. specialize (IH e1 e' rs (K _ Q) R). destruct Q as [Q1 Q2]. rewrite Q1, Q2 in IH. exact IH. }
    destruct o; try (exact (S H1 H2)).
    unfold update_times. cbn [flat_map app instants_after]. unfold due_sample in H1. rewrite Hi in H1. cbn [orb] in H1.
    destruct (tg_last (ex_trig e) + tg_interval (ex_trig e) <=? update_time r0); [|exact (S H1 H2)].
    destruct H1 as [T1 T2]. rewrite Hi in T1. assert (Hi1 : tg_init (ex_trig e1) = false) by (rewrite T1; reflexivity).
    specialize (IH e1 e' rs Hi1 H2). rewrite T1, T2 in IH. cbn [tg_interval tg_last length] in *. cbv zeta in IH. fold (update_times ops) in *.
    destruct IH as (E1 & E2 & E3 & E4). repeat split; [rewrite E1; lia | rewrite E2 | exact E3 | exact E4].
    destruct (instants_after _ _ _); [reflexivity|]. cbn [last]. clear. revert z. induction l; intros; [reflexivity | apply IHl].
Qed.

Lemma history_samples c ops e outs : history c ops e outs ->
  Z.of_nat (length (tk_samples (ex_trk e))) = num_samples c ops /\
  (update_times ops <> [] -> tg_last (ex_trig e) = last (instants (interval_of c) (update_times ops)) 0).
Proof.
  intros (e0 & Hi & Hr). unfold num_samples.
  assert (K : ex_trig e0 = trigger_new (interval_of c) /\ tk_samples (ex_trk e0) = []).
  { apply bind_done in Hi as [t [Ht Hi]]. unfold tracker_new in Ht. inv. unfold exchange_new in Hi. apply bind_done in Hi as [ac0 [_ Hi]]. inv. split; reflexivity. }
  clear Hi. destruct K as [K1 K2]. revert e0 outs Hr K1 K2. induction ops as [|o ops IH]; intros e0 outs Hr K1 K2; cbn [run] in Hr.
  - inv. rewrite K2. cbn. split; [reflexivity | congruence].
  - apply bind_done in Hr as [[e1 r] [H1 H]]. apply bind_done in H as [[e2 rs] [H2 H]]. inv.
    apply step_samples in H1.
    destruct o as [ru| | | | | ]; try (unfold update_times; cbn [flat_map app]; destruct H1 as [Q1 Q2]; refine (IH e1 rs H2 _ _); congruence).
    unfold update_times. cbn [flat_map app instants]. fold (update_times ops). unfold due_sample in H1. rewrite K1 in H1. cbn [trigger_new tg_init orb] in H1.
    destruct H1 as [T1 T2]. rewrite K1 in T1. cbn in T1. rewrite K2 in T2.
    assert (Hi1 : tg_init (ex_trig e1) = false) by (rewrite T1; reflexivity).
    destruct (run_samples c ops e1 e rs Hi1 H2) as (E1 & E2 & _). rewrite T1, T2 in E1. rewrite T1 in E2. cbn [tg_interval tg_last length] in E1, E2.
    split; [rewrite E1; cbn [length]; lia | intros _; rewrite E2].
    destruct (instants_after _ _ _) as [|z l]; [reflexivity|]. cbn [last]. clear. revert z. induction l; intros; [reflexivity | apply IHl].
Qed.

(** ** Arithmetic of the instants *)
Lemma after_spaced iv ts : forall la, instants_after iv la ts = map (fun k => la + Z.of_nat k * iv) (seq 1 (length (instants_after iv la ts))).
Proof.
  induction ts as [|t ts IH]; intros la; cbn [instants_after]; [reflexivity|].
  destruct (la + iv <=? t); [|apply IH]. cbn [length seq map]. f_equal; [lia|]. rewrite IH at 1. rewrite <- (seq_shift _ 1), map_map. apply map_ext. intros k. lia.
Qed.
Lemma instants_spaced iv t0 ts : instants iv (t0 :: ts) = map (fun k => t0 + Z.of_nat k * iv) (seq 0 (length (instants iv (t0 :: ts)))).
Proof. cbn [instants length seq map]. f_equal; [lia | apply after_spaced]. Qed.
Lemma after_bound iv T ts : forall la, (forall t, In t ts -> t <= T) -> la <= T ->
  la + Z.of_nat (length (instants_after iv la ts)) * iv <= T /\ (length (instants_after iv la ts) <= length ts)%nat.
Proof.
  induction ts as [|t ts IH]; intros la Ht Hla; cbn [instants_after length]; [lia|].
  assert (Ht' : forall x, In x ts -> x <= T) by (intros; apply Ht; right; assumption). specialize (Ht t (or_introl eq_refl)).
  destruct (Z.leb_spec (la + iv) t); [|destruct (IH la Ht' Hla); lia].
  cbn [length]. destruct (IH (la + iv) Ht' ltac:(lia)). lia.
Qed.
Lemma instants_bound iv T t0 ts : (forall t, In t (t0 :: ts) -> t <= T) ->
  (Z.of_nat (length (instants iv (t0 :: ts))) - 1) * iv <= T - t0 /\ (1 <= length (instants iv (t0 :: ts)) <= length (t0 :: ts))%nat.
Proof.
  intros Ht. cbn [instants length]. destruct (after_bound iv T ts t0) as [H1 H2]; [intros; apply Ht; right; assumption | apply Ht; left; reflexivity|]. lia.
Qed.
Lemma after_exact iv ts : forall la prev, close_by iv prev ts -> la <= prev < la + iv ->
  let n := Z.of_nat (length (instants_after iv la ts)) in la + n * iv <= last ts prev < la + (n + 1) * iv.
Proof.
  induction ts as [|t ts IH]; intros la prev Hc Hp; [cbv zeta; cbn [instants_after length last]; lia|]. destruct Hc as [H1 H2]. cbn [instants_after].
  assert (E : forall d0, last (t :: ts) d0 = last ts t).
  { intros. destruct ts as [|z l]; [reflexivity|]. cbn [last]. clear. revert z. induction l; intros; [reflexivity | apply IHl]. }
  rewrite E. destruct (Z.leb_spec (la + iv) t).
  - specialize (IH (la + iv) t H2 ltac:(lia)). cbv zeta in *. cbn [length]. lia.
  - apply IH; [exact H2 | lia].
Qed.
Lemma instants_exact iv t0 ts : 0 < iv -> close_by iv t0 ts ->
  Z.of_nat (length (instants iv (t0 :: ts))) = 1 + (last (t0 :: ts) t0 - t0) / iv.
Proof.
  intros Hi Hc. pose proof (after_exact iv ts t0 t0 Hc ltac:(lia)) as H. cbv zeta in H. cbn [instants length].
  assert (E : last (t0 :: ts) t0 = last ts t0).
  { destruct ts as [|z l]; [reflexivity|]. cbn [last]. clear. revert z. induction l; intros; [reflexivity | apply IHl]. }
  rewrite E, Nat2Z.inj_succ. assert ((last ts t0 - t0) / iv = Z.of_nat (length (instants_after iv t0 ts))); [|lia].
  symmetry. apply Z.div_unique with (r := last ts t0 - t0 - Z.of_nat (length (instants_after iv t0 ts)) * iv); lia.
Qed.
