(** Derived statistics of the account tracker. *)
From Verif Require Import ProofBase BookLemmas StepLemmas FillLemmas OpLemmas Inv Spec SpecConfig SpecMarket SpecTrack SpecFlow SpecStats Stats BookProof OrderProof
  SoundProof SampleProof TrackProof MarketProof LiqProof HealthProof LedgerProof PnlCor Scenario ScenarioPanic TrackFacts.

Definition still (t t' : tracker) : Prop :=
  tk_start t' = tk_start t /\ tk_price_first t' = tk_price_first t /\ tk_price_last t' = tk_price_last t /\
  tk_ts_first t' = tk_ts_first t /\ tk_ts_last t' = tk_ts_last t /\ tk_last_balance_sum t' = tk_last_balance_sum t.
Lemma still_refl t : still t t.
Proof. repeat split. Qed.
Lemma still_trans a b c : still a b -> still b c -> still a c.
Proof. unfold still. intuition congruence. Qed.
Lemma still_add t a b n m s f v w : still t (tracker_add t a b n m s f v w).
Proof. repeat split. Qed.

Lemma fills_still c u l e e' : fills c u e l e' -> still (ex_trk e) (ex_trk e').
Proof.
  induction 1 as [e|e o l e' Hq Hl IH|e o q e1 l e' Hq He Hl IH]; [apply still_refl | exact IH|].
  eapply still_trans; [|exact IH]. rewrite (fe_trk _ _ _ _ _ _ He). unfold trk_fill. destruct (lo_side o); repeat split.
Qed.
Lemma market_still c e e' o : market_effect c e e' o -> still (ex_trk e) (ex_trk e').
Proof. intros M. rewrite (me_trk _ _ _ _ M). unfold trk_market. destruct (nm_side o); repeat split. Qed.
Lemma check_still c e u e' : check_active_orders c e u = Done e' -> still (ex_trk e) (ex_trk e').
Proof.
  intros H. apply check_active_spec in H as [(_ & ->) | (_ & e1 & act & _ & _ & Hf & _ & -> & _)]; [repeat split|].
  apply fills_still in Hf. exact Hf.
Qed.
Lemma submit_still c e o e' r : submit_limit_order c e o = Done (e', r) -> still (ex_trk e) (ex_trk e').
Proof.
  intros H. apply submit_limit_spec in H as [(err & -> & _ & E & Hr) | (_ & _ & _ & _ & a & Ha & ->)].
  - rewrite E. repeat split.
  - apply append_spec in Ha. destruct a as [[]|err].
    + rewrite (ae_trk _ _ _ _ Ha). repeat split.
    + destruct Ha as (-> & [(-> & _) | (om' & r' & _ & -> & _)]); repeat split.
Qed.
Lemma cancel_still c e e' b o : cancel_effect c e e' b o -> still (ex_trk e) (ex_trk e').
Proof. intros C. rewrite (ce_trk _ _ _ _ _ C). repeat split. Qed.

Definition set0 (x y : Z) : Z := if x =? 0 then y else x.

Lemma step_stats c e o e' r : 0 <= c_max c <= 10000 -> Inv c e -> step c e o = Done (e', r) ->
  let t := ex_trk e in let t' := ex_trk e' in
  match o with
  | OpUpdate ru =>
      let q := quote_after ru (ex_ms e) in let m := Z.quot (fst q + snd q) 2 in let ts := update_time ru in
      tk_start t' = tk_start t /\ tk_price_first t' = set0 (tk_price_first t) m /\ tk_price_last t' = m /\
      tk_ts_first t' = set0 (tk_ts_first t) ts /\ tk_ts_last t' = ts /\
      tk_last_balance_sum t' = if due_sample e ts then wealth_of e else tk_last_balance_sum t
  | _ => still t t'
  end.
Proof.
  intros Hm I H0. pose proof H0 as H. cbv zeta. destruct o as [ru|sd q uid|sd p q uid|b|id sd p q uid|ru]; cbn [step] in H.
  - apply bind_done in H as [u [Hu H]]. apply map_out_done in H as (r0 & H & ->).
    destruct (step_market _ _ _ _ _ Hm I H0) as (B & A & T & _). rewrite <- B, <- A. clear H0.
    apply update_state_spec in H as [_ H]. cbv zeta in H.
    assert (Q : still (ex_trk (pre_check c e u)) (ex_trk e') /\ ex_ms e' = ex_ms (pre_check c e u)).
    { destruct (check_maintenance_margin _ _ _ _) as [[]|re] eqn:Ec; destruct H as [-> H].
      - split; [exact (check_still _ _ _ _ H)|]. apply (check_active_effect _ _ _ _ _ (pre_check_inv c e u I) Hu H).
      - apply liquidate_spec in H as (lo & Hme & _). split; [exact (market_still _ _ _ _ Hme)|]. apply (me_ms _ _ _ _ Hme). }
    destruct Q as [(Q1 & Q2 & Q3 & Q4 & Q5 & Q6) Q]. rewrite Q1, Q2, Q3, Q4, Q5, Q6, Q. clear - Hu.
    rewrite <- (update_time_built _ _ _ Hu). unfold due_sample, pre_check, should_trigger, set0, mid_price. cbn [set_ms set_trk ex_trig].
    destruct (ex_trig e) as [iv la []]; cbn [tg_init tg_last tg_interval orb].
    { repeat split. cbn. unfold balances_sum, wealth_of, wallet_of, order_margin_of, position_margin_of; cbn; lia. }
    destruct (la + iv <=? update_ts u); repeat split. cbn. unfold balances_sum, wealth_of, wallet_of, order_margin_of, position_margin_of; cbn; lia.
  - destruct (market_new sd q uid); [|inv; apply still_refl].
    apply map_out_done in H as (r0 & H & ->). apply submit_market_spec in H. destruct r0 as [f|err].
    + destruct H as [_ Hme]. exact (market_still _ _ _ _ Hme).
    + destruct H as (_ & E & _). rewrite E. repeat split.
  - destruct (limit_new sd p q uid); [|inv; apply still_refl].
    apply map_out_done in H as (rr & H & _). exact (submit_still _ _ _ _ _ H).
  - apply map_out_done in H as (rr & H & ->). apply cancel_spec in H as [_ H]. destruct rr.
    + exact (cancel_still _ _ _ _ _ H).
    + destruct H as (-> & _). apply still_refl.
  - destruct (limit_new sd p q uid); [|inv; apply still_refl].
    apply map_out_done in H as (rr & H & ->). apply amend_spec in H. destruct (get_by_id (ex_active e) id).
    + cbv zeta in H. destruct H as [_ H]. destruct (_ <=? 0).
      * destruct H as [[x C] ->]. exact (cancel_still _ _ _ _ _ C).
      * destruct H as (e1 & x & C & H). eapply still_trans; [exact (cancel_still _ _ _ _ _ C) | exact (submit_still _ _ _ _ _ H)].
    + destruct H as [-> _]. apply still_refl.
  - apply bind_done in H as [u [Hu H]]. apply bind_done in H as [e1 [H Hd]]. injection Hd as <- _. exact (check_still _ _ _ _ H).
Qed.

Lemma first_set_cons x l : first_set (x :: l) = set0 x (first_set l).
Proof. unfold first_set, set0. cbn [filter]. destruct (Z.eqb_spec x 0); cbn [negb]; reflexivity. Qed.
Lemma set0_assoc x y z : set0 (set0 x y) z = set0 x (set0 y z).
Proof. unfold set0. destruct (Z.eqb_spec x 0) as [->|N]; [reflexivity|]. destruct (Z.eqb_spec x 0); [lia|reflexivity]. Qed.
Lemma set0_0 x : set0 x 0 = x.
Proof. unfold set0. destruct (Z.eqb_spec x 0); lia. Qed.
Lemma last_cons {A} (a d : A) l : last (a :: l) d = last l a.
Proof. revert a d. induction l as [|b l IH]; intros; [reflexivity|]. change (last (a :: b :: l) d) with (last (b :: l) d). rewrite !IH. reflexivity. Qed.

Lemma run_stats c : 0 <= c_max c <= 10000 -> forall ops e e' outs, reachable c e -> run c e ops = Done (e', outs) ->
  let t := ex_trk e in let t' := ex_trk e' in let ms := marks_from (ms_bid (ex_ms e), ms_ask (ex_ms e)) ops in
  tk_start t' = tk_start t /\ tk_price_first t' = set0 (tk_price_first t) (first_set ms) /\ tk_price_last t' = last ms (tk_price_last t) /\
  tk_ts_first t' = set0 (tk_ts_first t) (first_set (update_times ops)) /\ tk_ts_last t' = last (update_times ops) (tk_ts_last t).
Proof.
  intros Hm. induction ops as [|o ops IH]; intros e e' outs R H; cbv zeta.
  - cbn in H. injection H as <- <-. cbn. rewrite !set0_0. repeat split.
  - cbn [run] in H. apply bind_done in H as [[e1 r] [H1 H]]. apply bind_done in H as [[e2 rs] [H2 H]]. injection H as -> <-.
    pose proof (reachable_inv _ _ Hm R) as I. pose proof (step_stats _ _ _ _ _ Hm I H1) as S. pose proof (step_market _ _ _ _ _ Hm I H1) as M.
    destruct (IH _ _ _ (reach_step _ _ _ _ _ R H1) H2) as (I1 & I2 & I3 & I4 & I5). cbv zeta in S.
    destruct o as [ru|sd q uid|sd p q uid|b|id sd p q uid|ru];
      try (destruct S as (S1 & S2 & S3 & S4 & S5 & S6); rewrite M in I2, I3; cbn [marks_from update_times flat_map app];
           rewrite I1, I2, I3, I4, I5, S1, S2, S3, S4, S5; repeat split; reflexivity).
    destruct S as (S1 & S2 & S3 & S4 & S5 & S6). destruct M as (B & A & _). rewrite B, A in I2, I3.
    cbn [marks_from]. unfold update_times. cbn [flat_map app]. fold (update_times ops).
    unfold quote_after in *. cbv zeta. destruct (quote_of ru) as [[b a]|]; cbn [fst snd] in *;
      rewrite I1, I2, I3, I4, I5, S1, S2, S3, S4, S5, !last_cons, !first_set_cons, !set0_assoc; repeat split; reflexivity.
Qed.

Lemma init_reach c e : init c = Done e -> reachable c e.
Proof. intros H. exists [], [], e. split; [exact H | reflexivity]. Qed.

Lemma init_trk c e : init c = Done e -> tk_start (ex_trk e) = c_start c /\ tk_price_first (ex_trk e) = 0 /\ tk_price_last (ex_trk e) = 0 /\
  tk_ts_first (ex_trk e) = 0 /\ tk_ts_last (ex_trk e) = 0 /\ tk_last_balance_sum (ex_trk e) = 0 /\ tk_samples (ex_trk e) = [] /\
  ex_ms e = market_state_default.
Proof.
  unfold init, tracker_new, exchange_new. intros H. apply bind_done in H as [t [H1 H]]. apply bind_done in H1 as [? [_ H1]]. injection H1 as <-.
  apply bind_done in H as [acc [_ H]]. injection H as <-. repeat split.
Qed.

Lemma history_stats c ops e outs :
  0 <= c_max c <= 10000 -> history c ops e outs ->
  let t := ex_trk e in
  tk_start t = c_start c /\ tk_price_first t = first_set (marks ops) /\ tk_price_last t = last (marks ops) 0 /\
  tk_ts_first t = first_set (update_times ops) /\ tk_ts_last t = last (update_times ops) 0.
Proof.
  intros Hm (e0 & Hi & H). destruct (run_stats c Hm ops e0 e outs (init_reach _ _ Hi) H) as (A & B & C & D & E).
  destruct (init_trk _ _ Hi) as (I1 & I2 & I3 & I4 & I5 & _ & _ & I6). rewrite I1 in A. rewrite I2, I6 in B. rewrite I3, I6 in C. rewrite I4 in D. rewrite I5 in E.
  cbv zeta. repeat split; assumption.
Qed.

(** Profit since the start as of the last sample. *)
Lemma run_balance c : 0 <= c_max c <= 10000 -> forall ops e e' outs, reachable c e -> run c e ops = Done (e', outs) ->
  tk_last_balance_sum (ex_trk e) = hd 0 (tk_samples (ex_trk e)) -> tk_last_balance_sum (ex_trk e') = hd 0 (tk_samples (ex_trk e')).
Proof.
  intros Hm. induction ops as [|o ops IH]; intros e e' outs R H E.
  - cbn in H. injection H as <- <-. exact E.
  - cbn [run] in H. apply bind_done in H as [[e1 r] [H1 H]]. apply bind_done in H as [[e2 rs] [H2 H]]. injection H as -> <-.
    eapply IH; [exact (reach_step _ _ _ _ _ R H1) | exact H2|].
    pose proof (step_stats _ _ _ _ _ Hm (reachable_inv _ _ Hm R) H1) as S. pose proof (step_samples _ _ _ _ _ H1) as P. cbv zeta in S.
    destruct o as [ru|sd q uid|sd p q uid|b|id sd p q uid|ru];
      try (destruct S as (_ & _ & _ & _ & _ & S6); destruct P as [_ P]; rewrite S6, P; exact E).
    destruct S as (_ & _ & _ & _ & _ & S6). rewrite S6. destruct (due_sample e (update_time ru)).
    + destruct P as [_ P]. rewrite P. reflexivity.
    + destruct P as [_ P]. rewrite P. exact E.
Qed.

Lemma history_rpnl c ops e outs :
  0 <= c_max c <= 10000 -> history c ops e outs -> rpnl (ex_trk e) = hd 0 (tk_samples (ex_trk e)) - c_start c.
Proof.
  intros Hm H. destruct (history_stats _ _ _ _ Hm H) as (A & _). destruct H as (e0 & Hi & H). unfold rpnl. rewrite A. f_equal.
  destruct (init_trk _ _ Hi) as (_ & _ & _ & _ & _ & B & S & _).
  eapply (run_balance c Hm ops e0 e outs (init_reach _ _ Hi) H). rewrite B, S. reflexivity.
Qed.

Lemma step_rpnl c e o e' r :
  0 <= c_max c <= 10000 -> reachable c e -> step c e o = Done (e', r) ->
  rpnl (ex_trk e') =
  match o with
  | OpUpdate ru => if due_sample e (update_time ru) then wealth_of e - c_start c else rpnl (ex_trk e)
  | _ => rpnl (ex_trk e)
  end.
Proof.
  intros Hm R H. pose proof (step_stats _ _ _ _ _ Hm (reachable_inv _ _ Hm R) H) as S. unfold rpnl. cbv zeta in S.
  destruct R as (ops & outs & e0 & Hi & Hr). destruct (history_stats c ops e outs Hm (ex_intro _ e0 (conj Hi Hr))) as (A & _).
  destruct o as [ru|sd q uid|sd p q uid|b|id sd p q uid|ru];
    try (destruct S as (S1 & _ & _ & _ & _ & S6); rewrite S1, S6; reflexivity).
  destruct S as (S1 & _ & _ & _ & _ & S6). rewrite S1, S6, A. destruct (due_sample e (update_time ru)); reflexivity.
Qed.

Lemma rpnl_start c e : init c = Done e -> rpnl (ex_trk e) = - c_start c.
Proof. intros H. destruct (init_trk _ _ H) as (A & _ & _ & _ & _ & B & _). unfold rpnl. rewrite A, B. lia. Qed.

(** Trading days. *)
Lemma ordered_last p l : ordered p l -> p <= last l p.
Proof. revert p. induction l as [|t l IH]; intros p H; [cbn; lia|]. destruct H as [H1 H2]. rewrite last_cons. specialize (IH _ H2). lia. Qed.
Lemma first_before l p : 0 <= p -> ordered p l -> l <> [] -> 0 <= first_set l <= last l 0.
Proof.
  revert p. induction l as [|t l IH]; intros p Hp H N; [contradiction|]. destruct H as [H1 H2]. rewrite last_cons, first_set_cons.
  pose proof (ordered_last _ _ H2). unfold set0. destruct (Z.eqb_spec t 0) as [->|]; [|lia].
  destruct l as [|u l]; [cbn; lia|]. rewrite last_cons. specialize (IH 0 ltac:(lia) H2 ltac:(discriminate)). rewrite last_cons in IH. exact IH.
Qed.
Lemma trading_days c ops e outs :
  0 <= c_max c <= 10000 -> history c ops e outs -> ordered 0 (update_times ops) ->
  num_trading_days (ex_trk e) = Done ((last (update_times ops) 0 - first_set (update_times ops)) / day) /\
  0 <= last (update_times ops) 0 - first_set (update_times ops).
Proof.
  intros Hm H O. destruct (history_stats _ _ _ _ Hm H) as (_ & _ & _ & A & B). unfold num_trading_days. rewrite A, B. clear A B.
  destruct (update_times ops) as [|t l] eqn:E; [split; [reflexivity | cbn; lia]|].
  pose proof (first_before (t :: l) 0 ltac:(lia) O ltac:(discriminate)) as F.
  destruct (Z.leb_spec (first_set (t :: l)) (last (t :: l) 0)); [|lia]. cbn [assert bind]. split; [|lia].
  rewrite Z.quot_div_nonneg by (unfold day in *; lia). reflexivity.
Qed.
Lemma days_exact c ops e outs :
  0 <= c_max c <= 10000 -> history c ops e outs ->
  num_trading_days (ex_trk e) =
    if last (update_times ops) 0 <? first_set (update_times ops) then Panic PTradingDays
    else Done ((last (update_times ops) 0 - first_set (update_times ops)) / day).
Proof.
  intros Hm H. destruct (history_stats _ _ _ _ Hm H) as (_ & _ & _ & A & B). unfold num_trading_days. rewrite A, B. clear A B.
  destruct (Z.leb_spec (first_set (update_times ops)) (last (update_times ops) 0)) as [L|L], (Z.ltb_spec (last (update_times ops) 0) (first_set (update_times ops))) as [G|G];
    try lia; cbn [assert bind]; [|reflexivity].
  rewrite Z.quot_div_nonneg by (unfold day in *; lia). reflexivity.
Qed.
Lemma days_panic dbg : exists e outs,
  history (L dbg) [quote 100 101 5; quote 100 101 3] e outs /\ num_trading_days (ex_trk e) = Panic PTradingDays.
Proof.
  destruct (play (L dbg) [quote 100 101 5; quote 100 101 3]) as [[e outs]|] eqn:E; [|destruct dbg; vm_compute in E; discriminate].
  exists e, outs. split; [apply play_history; exact E|]. destruct dbg; vm_compute in E; injection E as <- <-; reflexivity.
Qed.

(** Buy and hold. *)
Lemma hold_law c ops e outs :
  0 <= c_max c <= 10000 -> 0 < c_scale c -> 0 < c_start c -> history c ops e outs ->
  let p0 := first_set (marks ops) in let p1 := last (marks ops) 0 in
  0 < p0 -> 0 < p1 ->
  exists v, buy_and_hold_return c (ex_trk e) = Done v /\ sell_and_hold_return c (ex_trk e) = Done (- v) /\
    (p0 = p1 -> v = 0) /\ (p0 <= p1 -> 0 <= v) /\ (p1 <= p0 -> v <= 0).
Proof.
  intros Hm Hs Hst H. destruct (history_stats _ _ _ _ Hm H) as (A & B & C & _). cbv zeta. intros H0 H1.
  unfold sell_and_hold_return, buy_and_hold_return. rewrite A, B, C.
  assert (Q : exists q, convert_paired (c_kind c) (c_scale c) (c_start c) (first_set (marks ops)) = Done q /\ 0 <= q).
  { unfold convert_paired, ddiv, dmul. destruct (c_kind c).
    - destruct (Z.eqb_spec (first_set (marks ops)) 0); [lia|]. eexists. split; [reflexivity|]. apply Z.quot_pos; nia.
    - eexists. split; [reflexivity|]. apply Z.quot_pos; nia. }
  destruct Q as (q & -> & Hq). cbn [bind].
  destruct (pnl_laws (c_kind c) (c_scale c) q (first_set (marks ops)) (last (marks ops) 0) Hs H0 H1) as (g & -> & _ & _ & L1 & L2 & L3).
  exists g. cbn [bind]. repeat split; auto.
Qed.
Lemma hold_panic c e : init c = Done e -> 0 < c_scale c -> 0 < c_start c ->
  buy_and_hold_return c (ex_trk e) = match c_kind c with Linear => Panic PDivByZero | Inverse => Done 0 end.
Proof.
  intros H Hs Hst. destruct (init_trk _ _ H) as (A & B & C & _). unfold buy_and_hold_return. rewrite A, B, C.
  unfold convert_paired, ddiv, dmul. destruct (c_kind c); cbn [Z.eqb bind]; [reflexivity|]. rewrite Z.mul_0_r, Z.quot_0_l by lia. reflexivity.
Qed.

(** Volume ratio. *)
Lemma volumes_nonneg c e : valid_config c -> reachable c e -> 0 <= tk_buy_volume (ex_trk e) /\ 0 <= tk_sell_volume (ex_trk e).
Proof.
  intros V (ops & outs & e0 & Hi & Hr).
  assert (G : forall ops e0 e outs, reachable c e0 -> run c e0 ops = Done (e, outs) ->
    0 <= tk_buy_volume (ex_trk e0) /\ 0 <= tk_sell_volume (ex_trk e0) -> 0 <= tk_buy_volume (ex_trk e) /\ 0 <= tk_sell_volume (ex_trk e)).
  { clear - V. induction ops as [|o ops IH]; intros e0 e outs R H X.
    - cbn in H. injection H as <- <-. exact X.
    - cbn [run] in H. apply bind_done in H as [[e1 r] [H1 H]]. apply bind_done in H as [[e2 rs] [H2 H]]. injection H as -> <-.
      eapply IH; [exact (reach_step _ _ _ _ _ R H1) | exact H2|].
      pose proof (statistics_grow _ _ _ _ _ V R H1) as (a & b & n & m & s & f & v & w & (_ & _ & _ & _ & _ & _ & P1 & P2) & _ & _ & _ & _ & _ & _ & Hv & Hw). lia. }
  eapply G; [exact (init_reach _ _ Hi) | exact Hr|].
  unfold init, tracker_new, exchange_new in Hi. apply bind_done in Hi as [t [H1 H]]. apply bind_done in H1 as [? [_ H1]]. injection H1 as <-.
  apply bind_done in H as [acc [_ H]]. injection H as <-. cbn. lia.
Qed.
Lemma ratio_law c e : valid_config c -> reachable c e ->
  let b := tk_buy_volume (ex_trk e) in let total := turnover (ex_trk e) in
  0 <= b <= total /\
  (total = 0 -> buy_volume_ratio c (ex_trk e) = Done None) /\
  (total <> 0 -> exists r, buy_volume_ratio c (ex_trk e) = Done (Some r) /\ 0 <= r <= c_scale c /\ r * total <= b * c_scale c < (r + 1) * total).
Proof.
  intros V R. destruct (volumes_nonneg c e V R) as [B S]. cbv zeta. unfold turnover, buy_volume_ratio.
  destruct (Z.leb_spec 0 (tk_buy_volume (ex_trk e))); [|lia]. destruct (Z.leb_spec 0 (tk_sell_volume (ex_trk e))); [|lia]. cbn [assert bind].
  set (b := tk_buy_volume (ex_trk e)) in *. set (t := b + tk_sell_volume (ex_trk e)) in *. split; [lia|]. pose proof (vc_scale _ V) as Hs.
  destruct (Z.eqb_spec t 0) as [E|E]; [split; [reflexivity | contradiction]|]. split; [contradiction|]. intros _.
  unfold ddiv. destruct (Z.eqb_spec t 0); [contradiction|]. cbn [bind]. eexists. split; [reflexivity|].
  rewrite Z.quot_div_nonneg by nia. pose proof (Z.div_mod (b * c_scale c) t ltac:(lia)). pose proof (Z.mod_pos_bound (b * c_scale c) t ltac:(lia)).
  split; [|nia]. split; [apply Z.div_pos; nia|]. apply Z.div_le_upper_bound; nia.
Qed.
Lemma new_iff start : (exists t, tracker_new start = Done t) <-> 0 < start.
Proof.
  unfold tracker_new. destruct (Z.ltb_spec 0 start) as [H|H]; cbn [assert bind]; split; try lia.
  - intros _. eexists; reflexivity.
  - intros [t Ht]; discriminate.
Qed.
