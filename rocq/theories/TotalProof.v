(** When calls complete: position changes, market orders, liquidation. *)
From Verif Require Import ProofBase BookLemmas StepLemmas FillLemmas OpLemmas Inv Spec SpecBook SpecRules SpecMargin SpecConfig SpecMarket SpecPanic
  LedgerProof FeeProof FilterProof MarginProof BookProof OrderProof CoreProof SoundProof PanicProof PanicCor MarketProof LiqProof.

Lemma margin_entry c q p : 0 < margin_of c q p -> 0 <= p -> 0 < p.
Proof.
  intros H Hp. destruct (Z.eq_dec p 0) as [->|]; [exfalso | lia]. unfold margin_of, dmul, conv in H.
  destruct (c_kind c); [rewrite Z.mul_0_r in H; cbn in H | rewrite Zquot.Zquot_0_r in H; cbn in H]; rewrite ?Zquot.Zquot_0_l, ?Z.mul_0_l, ?Zquot.Zquot_0_l in H; try lia;
  try (destruct (c_scale c); cbn in H; lia).
Qed.

Lemma pure_keeps acc dd cc amt : debit_sum acc = credit_sum acc -> dd <> cc -> debit_sum (transfer_pure acc dd cc amt) = credit_sum (transfer_pure acc dd cc amt).
Proof. intros H Hd. destruct (transfer_sums acc dd cc amt Hd). lia. Qed.

Lemma settle_keeps acc a b d : debit_sum acc = credit_sum acc -> debit_sum (settle_acc acc a b d) = credit_sum (settle_acc acc a b d).
Proof.
  intros H. unfold settle_acc, pay_due, settle_profit.
  destruct (a ?= 0), (0 <? d); repeat (apply pure_keeps; [|discriminate]); assumption.
Qed.

Lemma inner_new_ok c acc q p f :
  debit_sum acc = credit_sum acc -> 0 < q -> 0 < p -> 0 < margin_of c q p ->
  inner_new c acc q p f = Done ({| pi_qty := q; pi_entry := p; pi_fees := f |}, transfer_pure acc POSITION_MARGIN WALLET (margin_of c q p)).
Proof.
  intros Hs Hq Hp Hm. unfold inner_new. destruct (Z.ltb_spec 0 q); [|lia]. destruct (Z.ltb_spec 0 p); [|lia]. cbn [assert bind].
  rewrite convert_from_pos by lia. cbn [bind]. fold (margin_of c q p). rewrite transfer_ok; auto; discriminate.
Qed.

Lemma increase_ok c i acc q p f :
  debit_sum acc = credit_sum acc -> 0 < pi_qty i -> 0 < q -> 0 < p -> 0 < margin_of c q p ->
  increase_contracts c i acc q p f =
  Done ({| pi_qty := pi_qty i + q; pi_entry := weighted (c_scale c) (pi_entry i) (pi_qty i) p q; pi_fees := pi_fees i + f |},
        transfer_pure acc POSITION_MARGIN WALLET (margin_of c q p)).
Proof.
  intros Hs Hi Hq Hp Hm. unfold increase_contracts. destruct (Z.ltb_spec 0 q); [|lia]. destruct (Z.ltb_spec 0 p); [|lia]. cbn [assert bind].
  rewrite convert_from_pos by lia. cbn [bind]. rewrite new_weighted_price_ok by lia. cbn [bind].
  fold (margin_of c q p). rewrite transfer_ok; auto; discriminate.
Qed.

Lemma decrease_ok c i acc q p long f :
  debit_sum acc = credit_sum acc -> 0 < q <= pi_qty i -> 0 < p -> 0 <= pi_entry i -> 0 < margin_of c q (pi_entry i) ->
  decrease_contracts c i acc q p long f =
  Done ({| pi_qty := pi_qty i - q; pi_entry := pi_entry i; pi_fees := Z.min (pi_fees i + f) 0 |},
        settle_acc acc (pnl_pure (c_kind c) (c_scale c) (pi_entry i) p (dir long q)) (margin_of c q (pi_entry i)) (pi_fees i + f)).
Proof.
  intros Hs Hq Hp He Hm. pose proof (margin_entry _ _ _ Hm He) as He'. unfold decrease_contracts.
  destruct (Z.ltb_spec 0 q); [|lia]. destruct (Z.leb_spec q (pi_qty i)); [|lia]. destruct (Z.leb_spec 0 (pi_qty i - q)); [|lia].
  cbn [assert bind]. rewrite debug_assert_true. cbn [bind]. rewrite pnl_ok by lia. cbn [bind]. fold (dir long q).
  set (profit := pnl_pure (c_kind c) (c_scale c) (pi_entry i) p (dir long q)).
  assert (E : match profit ?= 0 with
              | Eq => Done acc
              | Lt => transfer (c_dbg c) acc TREASURY WALLET (Z.abs profit)
              | Gt => transfer (c_dbg c) acc WALLET TREASURY profit
              end = Done (settle_profit acc profit)).
  { unfold settle_profit. destruct (Z.compare_spec profit 0); [reflexivity | |]; rewrite transfer_ok; try assumption; try discriminate; try lia; reflexivity. }
  rewrite E. cbn [bind]. rewrite convert_from_pos by lia. cbn [bind]. fold (margin_of c q (pi_entry i)).
  destruct (Z.ltb_spec 0 (margin_of c q (pi_entry i))); [|lia]. rewrite debug_assert_true. cbn [bind].
  assert (Hs1 : debit_sum (settle_profit acc profit) = credit_sum (settle_profit acc profit)).
  { unfold settle_profit. destruct (profit ?= 0); [assumption | |]; apply pure_keeps; auto; discriminate. }
  rewrite transfer_ok; [|exact Hs1|assumption|discriminate]. cbn [bind]. unfold settle_acc, pay_due.
  destruct (Z.ltb_spec 0 (pi_fees i + f)).
  - rewrite transfer_ok; [|apply pure_keeps; [exact Hs1|discriminate]|assumption|discriminate]. cbn [bind]. rewrite Z.min_r by lia. reflexivity.
  - rewrite Z.min_l by lia. reflexivity.
Qed.

Lemma mbo_bal acc i : margin_balance_of acc i = bal acc i.
Proof. reflexivity. Qed.

Lemma cp_complete c acc q p sd f pos pos' acc' :
  debit_sum acc = credit_sum acc -> 0 < p -> pos_ok pos -> 0 <= position_entry_price pos ->
  cp_case c acc q p sd f pos pos' acc' -> change_position c pos acc q p sd f = Done (pos', acc').
Proof.
  intros Hs Hp Hok He H. unfold change_position. fold (bal acc POSITION_MARGIN).
  destruct H as [Hq _ Hm Hd|i Hq _ Hm|i Hq Hlt Hm|i Hq Heq Hm Hd|i Hi Hlt _ Hm Hm2 Hpm];
  (destruct (Z.ltb_spec 0 q); [|lia]); rewrite debug_assert_true; cbn [bind]; rewrite ?mk_pos_ok in Hok.
  - assert (E : debug_assert (c_dbg c) (bal acc POSITION_MARGIN =? 0) PNeutralMarginDebug = Done tt).
    { destruct (c_dbg c); [|reflexivity]. rewrite (Hd eq_refl). reflexivity. }
    rewrite E. cbn [bind]. rewrite inner_new_ok by assumption. cbn [bind]. destruct sd; reflexivity.
  - destruct sd; cbn [mk_pos]; rewrite increase_ok by assumption; reflexivity.
  - destruct sd; cbn [mk_pos side_inverted] in *; cbn in He; (destruct (Z.compare_spec q (pi_qty i)); [lia| |lia]);
    rewrite decrease_ok by (assumption || lia); reflexivity.
  - destruct sd; cbn [mk_pos side_inverted] in *; cbn in He; (destruct (Z.compare_spec q (pi_qty i)); [|lia|lia]);
    rewrite decrease_ok by (assumption || lia); cbn [bind]; rewrite mbo_bal, bal_settle;
    (destruct (c_dbg c); cbn [debug_assert bind]; [rewrite (Hd eq_refl); destruct (Z.eqb_spec (margin_of c q (pi_entry i) + - margin_of c q (pi_entry i)) 0); [|lia]; cbn [assert bind]; reflexivity | reflexivity]).
  - destruct sd; cbn [mk_pos side_inverted] in *; cbn in He; (destruct (Z.compare_spec q (pi_qty i)); [lia|lia|]);
    rewrite decrease_ok by (assumption || lia); cbn [bind pi_qty]; rewrite Z.sub_diag; cbn [Z.eqb assert bind]; rewrite mbo_bal, bal_settle, Hpm;
    (destruct (Z.eqb_spec (margin_of c (pi_qty i) (pi_entry i) + - margin_of c (pi_qty i) (pi_entry i)) 0); [|lia]); cbn [assert bind];
    rewrite inner_new_ok by (try assumption; try lia; apply settle_keeps; assumption); reflexivity.
Qed.

Lemma margin_at_of c q p : margin_at c q p = margin_of c q p.
Proof. unfold margin_at, margin_of, dmul. rewrite value_conv. reflexivity. Qed.

Lemma cp_bookable c e q p sd f :
  valid_config c -> Sound c e -> 0 < q -> 0 < p ->
  ((exists pos' acc', cp_case c (ex_acc e) q p sd f (ex_pos e) pos' acc') <-> bookable c e sd q p).
Proof.
  intros V S Hq Hp. pose proof (inv_pos _ _ (so_inv _ _ S)) as Hok. unfold bookable, pm_of. cbn [ub_pm balances]. fold (bal (ex_acc e) POSITION_MARGIN).
  pose proof (so_flat _ _ S) as Hfl.
  split.
  - intros (pos' & acc' & H). 
    destruct H as [_ _ Hm Hd|i _ _ Hm|i _ Hlt Hm|i _ Heq Hm Hd|i Hi Hlt _ Hm Hm2 Hpm]; rewrite ?mk_pos_ok in Hok;
    destruct sd; cbn [same_side mk_pos side_inverted position_quantity position_entry_price];
    rewrite ?margin_at_of, ?Z.abs_opp, ?(Z.abs_eq (pi_qty i)) by lia; try assumption;
    (destruct (Z.compare_spec q (pi_qty i)); try lia; rewrite ?margin_at_of; auto).
  - intros H. destruct (ex_pos e) as [|i|i] eqn:E.
    + assert (Hm : 0 < margin_of c q p) by (rewrite <- margin_at_of; destruct sd; exact H).
      eexists _, _. apply cp_open; try assumption. auto.
    + cbn in Hok. destruct sd; cbn [same_side position_quantity position_entry_price] in H; rewrite ?margin_at_of in H.
      * eexists _, _. apply (cp_add c _ q p Buy f i); assumption.
      * rewrite Z.abs_eq in H by lia. rewrite ?margin_at_of in H. destruct (Z.compare_spec q (pi_qty i)).
        -- destruct H. eexists _, _. apply (cp_close c _ q p Sell f i); auto.
        -- eexists _, _. apply (cp_reduce c _ q p Sell f i); auto.
        -- destruct H as (H1 & H2 & H3). eexists _, _. apply (cp_flip c _ q p Sell f i); auto.
    + cbn in Hok. destruct sd; cbn [same_side position_quantity position_entry_price] in H; rewrite ?margin_at_of in H.
      * rewrite Z.abs_opp, Z.abs_eq in H by lia. rewrite ?margin_at_of in H. destruct (Z.compare_spec q (pi_qty i)).
        -- destruct H. eexists _, _. apply (cp_close c _ q p Buy f i); auto.
        -- eexists _, _. apply (cp_reduce c _ q p Buy f i); auto.
        -- destruct H as (H1 & H2 & H3). eexists _, _. apply (cp_flip c _ q p Buy f i); auto.
      * eexists _, _. apply (cp_add c _ q p Sell f i); assumption.
Qed.

Lemma check_funded c e sd q p :
  pos_ok (ex_pos e) -> 0 < p ->
  exists v, check_market_order c (ex_pos e) (bal (ex_acc e) POSITION_MARGIN) sd q p (bal (ex_acc e) WALLET) = Done v /\
    (v = Ok tt <-> funded c e sd q p) /\ (v = Err NotEnoughAvailableBalance <-> ~ funded c e sd q p).
Proof.
  intros Hok Hp. unfold check_market_order, funded, check_market_open, check_market_reduce, pm_of. cbn [balances ub_wallet ub_pm].
  fold (bal (ex_acc e) WALLET) (bal (ex_acc e) POSITION_MARGIN). rewrite ?margin_at_of. rewrite ?value_conv.
  destruct sd, (ex_pos e) as [|i|i]; cbn [same_side position_quantity]; cbn in Hok; rewrite ?Z.abs_opp, ?(Z.abs_eq (pi_qty i)) by lia;
  rewrite ?margin_at_of, ?value_conv; try destruct (Z.leb_spec q (pi_qty i));
  rewrite ?convert_from_pos by lia; cbn [bind]; (eexists; split; [reflexivity|]);
  unfold margin_of, dmul; try (match goal with |- context [?a <? ?b] => destruct (Z.ltb_spec a b) end);
  repeat split; intros; try reflexivity; try congruence; try lia.
Qed.

Lemma settle_ok c e o :
  valid_config c -> Sound c e -> entry_ok (ex_pos e) -> 0 < fm_qty o -> 0 < fm_avg o ->
  bookable c e (fm_side o) (fm_qty o) (fm_avg o) -> exists e', settle_filled_market_order c e o = Done e'.
Proof.
  intros V S He Hq Hp Hb. apply (cp_bookable c e _ _ _ (fee_of c (fm_qty o) (fm_avg o) (ct_taker (c_spec c))) V S Hq Hp) in Hb as (pos' & acc' & Hc).
  unfold settle_filled_market_order. destruct (Z.ltb_spec 0 (fm_qty o)); [|lia]. destruct (Z.ltb_spec 0 (fm_avg o)); [|lia]. cbn [assert bind].
  rewrite convert_from_pos by lia. cbn [bind]. fold (fee_of c (fm_qty o) (fm_avg o) (ct_taker (c_spec c))).
  rewrite (cp_complete _ _ _ _ _ _ _ _ _ (so_sums _ _ S) Hp (inv_pos _ _ (so_inv _ _ S)) He Hc). cbn [bind].
  unfold log_trade. destruct (Z.ltb_spec 0 (fm_qty o)); [|lia]. cbn [assert bind]. rewrite convert_from_pos by lia. cbn [bind]. eauto.
Qed.

Lemma bookable_ext c e e1 sd q p : ex_acc e1 = ex_acc e -> ex_pos e1 = ex_pos e -> bookable c e sd q p -> bookable c e1 sd q p.
Proof. intros E1 E2. unfold bookable, pm_of, balances. cbn [ub_pm]. rewrite E1, E2. auto. Qed.

Lemma sound_ext c e e1 :
  Sound c e -> ex_acc e1 = ex_acc e -> ex_pos e1 = ex_pos e -> ex_active e1 = ex_active e -> ex_om e1 = ex_om e -> ex_next_id e <= ex_next_id e1 -> Sound c e1.
Proof.
  intros S E1 E2 E3 E4 E5. pose proof (so_inv _ _ S) as I. constructor; rewrite ?E1, ?E2, ?E3; try apply S.
  destruct I. constructor; rewrite ?E2, ?E3, ?E4; auto.
  - intros o Ho. specialize (inv_ids o Ho). lia.
  - lia.
Qed.

Lemma market_complete c e o :
  valid_config c -> Sound c e -> entry_ok (ex_pos e) -> 0 < nm_qty o -> quantity_allowed (ct_qf (c_spec c)) (nm_qty o) ->
  0 < quote_price (ex_ms e) (nm_side o) -> funded c e (nm_side o) (nm_qty o) (quote_price (ex_ms e) (nm_side o)) ->
  bookable c e (nm_side o) (nm_qty o) (quote_price (ex_ms e) (nm_side o)) ->
  exists e' f, submit_market_order c e o = Done (e', Ok f).
Proof.
  intros V S He Hq Ha Hp Hf Hb. unfold submit_market_order.
  destruct (quantity_filter_exact _ (nm_qty o) (vc_qtick _ V)) as (v & -> & Hv & _). cbn [bind]. rewrite (proj2 Hv Ha).
  cbn [set_trk set_next_id ex_next_id ex_ms ex_acc ex_pos]. fold (quote_price (ex_ms e) (nm_side o)).
  destruct (check_funded c e (nm_side o) (nm_qty o) _ (inv_pos _ _ (so_inv _ _ S)) Hp) as (w & Hw & Hw1 & _).
  match goal with |- context [bind (check_market_order ?a ?b ?d ?f ?g ?h ?k) _] =>
    change (check_market_order a b d f g h k) with (check_market_order c (ex_pos e) (bal (ex_acc e) POSITION_MARGIN) (nm_side o) (nm_qty o) (quote_price (ex_ms e) (nm_side o)) (bal (ex_acc e) WALLET)) end.
  rewrite Hw. cbn [bind]. rewrite (proj2 Hw1 Hf).
  set (e1 := set_next_id (set_trk e (log_market_order_submission (ex_trk e))) (ex_next_id e + 1)).
  destruct (settle_ok c e1 (market_into_filled o (ex_next_id e) (ms_ts (ex_ms e)) (quote_price (ex_ms e) (nm_side o)) (ms_ts (ex_ms e)))) as [e' E]; try assumption.
  - eapply sound_ext; [exact S | reflexivity.. |]. cbn. lia.
  - rewrite E. cbn [bind]. eauto.
Qed.

Lemma market_bookable c e o e' : valid_config c -> Sound c e -> market_effect c e e' o -> 0 < quote_price (ex_ms e) (nm_side o) /\
  bookable c e (nm_side o) (nm_qty o) (quote_price (ex_ms e) (nm_side o)) /\
  funded c e (nm_side o) (nm_qty o) (quote_price (ex_ms e) (nm_side o)) /\ quantity_allowed (ct_qf (c_spec c)) (nm_qty o).
Proof.
  intros V S M. pose proof (me_price _ _ _ _ M) as Hp. split; [exact Hp|]. split; [|split].
  - exact (proj1 (cp_bookable c e _ _ _ _ V S (me_qty _ _ _ _ M) Hp) (ex_intro _ _ (ex_intro _ _ (me_cp _ _ _ _ M)))).
  - destruct (check_funded c e (nm_side o) (nm_qty o) _ (inv_pos _ _ (so_inv _ _ S)) Hp) as (w & Hw & Hw1 & _).
    rewrite (me_risk _ _ _ _ M) in Hw. injection Hw as <-. apply Hw1. reflexivity.
  - destruct (quantity_filter_exact _ (nm_qty o) (vc_qtick _ V)) as (v & E & Hv & _). rewrite (me_valid _ _ _ _ M) in E. injection E as <-. apply Hv. reflexivity.
Qed.

(** ** Market orders: exact outcome *)
Lemma market_exact c e sd q uid :
  valid_config c -> reachable c e ->
  ((exists e' f, step c e (OpMarket sd q uid) = Done (e', Ok (OutMarket f))) <->
   0 < q /\ quantity_allowed (ct_qf (c_spec c)) q /\ 0 < taker_price e sd /\
   funded c e sd q (taker_price e sd) /\ bookable c e sd q (taker_price e sd)).
Proof.
  intros V R. pose proof (reachable_sound _ _ V R) as S. change (taker_price e sd) with (quote_price (ex_ms e) sd). cbn [step]. split.
  - intros (e' & f & H). unfold market_new in H. destruct (Z.leb_spec q 0); [discriminate|].
    apply map_out_done in H as (rr & H & Hr). apply submit_market_spec in H. destruct rr; [|discriminate]. destruct H as [_ M].
    destruct (market_bookable _ _ _ _ V S M) as (H1 & H2 & H3 & H4). cbn in *. auto 6.
  - intros (Hq & Ha & Hp & Hf & Hb). unfold market_new. destruct (Z.leb_spec q 0); [lia|].
    destruct (market_complete c e {| nm_uid := uid; nm_side := sd; nm_qty := q |}) as (e' & f & E); cbn; try assumption.
    + apply (entry_nonneg c e (vc_scale _ V) (vc_max _ V) R).
    + rewrite E. cbn. eauto.
Qed.

(** ** Updates *)
Lemma update_unfold c e u :
  pf_tick (ct_pf (c_spec c)) <> 0 -> (c_dbg c = false \/ data_ok (ct_pf (c_spec c)) u) ->
  update_state c e u =
  match check_maintenance_margin c (ms_bid (ex_ms (pre_check c e u))) (ms_ask (ex_ms (pre_check c e u))) (ex_pos (pre_check c e u)) with
  | Err err => e5 <- liquidate c (pre_check c e u) ;; Done (e5, Err (ERisk err))
  | Ok _ => e5 <- check_active_orders c (pre_check c e u) u ;; Done (e5, Ok (ex_updates e5))
  end.
Proof.
  intros Ht Hd. unfold update_state, market_update_state, pre_check.
  destruct (data_total _ u Ht) as [v Hv]. rewrite Hv. cbn [bind].
  match goal with |- context [debug_assert_m ?a ?b ?d] => assert (E2 : debug_assert_m a b d = Done tt) end.
  { destruct Hd as [->|Hd]; [reflexivity|]. apply (data_exact _ _ Ht) in Hd. rewrite Hv in Hd. injection Hd as ->. destruct (c_dbg c); reflexivity. }
  rewrite E2. cbn [bind]. cbn [set_ms set_trk ex_trig ex_ms ex_trk].
  destruct (should_trigger (ex_trig e) (update_ts u)) as [trig fire]. reflexivity.
Qed.

(** ** Liquidation *)
Lemma closing_bookable c e ru :
  ex_pos e <> Neutral -> pos_ok (ex_pos e) ->
  let f := closing_fill c e ru in
  let m := margin_at c (f_qty f) (position_entry_price (ex_pos e)) in
  0 < f_qty f /\ (bookable c e (f_side f) (f_qty f) (f_price f) <-> 0 < m /\ (c_dbg c = true -> pm_of e = m)) /\
  funded c e (f_side f) (f_qty f) (f_price f).
Proof.
  intros Hn Hok f m. subst f m. unfold closing_fill, bookable, funded. cbn [f_qty f_side f_price].
  destruct (ex_pos e) as [|i|i]; [contradiction| |]; cbn [closing_side same_side position_quantity position_entry_price] in *;
  rewrite ?Z.abs_opp, Z.abs_eq by (cbn in Hok; lia); rewrite Z.compare_refl; cbn in Hok; split; try lia; split; try tauto; left; lia.
Qed.

Lemma liquidate_iff c e ru u :
  valid_config c -> reachable c e -> build_update (c_dbg c) ru = Done u -> ex_pos e <> Neutral ->
  let f := closing_fill c e ru in
  let m := margin_at c (f_qty f) (position_entry_price (ex_pos e)) in
  (exists e', liquidate c (pre_check c e u) = Done e') <->
  quantity_allowed (ct_qf (c_spec c)) (f_qty f) /\ 0 < f_price f /\ 0 < m /\ (c_dbg c = true -> pm_of e = m).
Proof.
  intros V R Hb Hn f m. pose proof (reachable_sound _ _ V R) as S. pose proof (pre_check_sound c e u S) as S1.
  pose proof (inv_pos _ _ (so_inv _ _ S)) as Hok. destruct (closing_bookable c e ru Hn Hok) as (Hq & Hbk & Hfu). fold f m in Hbk, Hq, Hfu.
  destruct (pre_check_fields c e u) as (E1 & E2 & E3 & _). destruct (quoted c e ru u Hb) as (Q1 & Q2 & _).
  assert (Hpr : quote_price (ex_ms (pre_check c e u)) (f_side f) = f_price f).
  { unfold f, closing_fill, quote_price. cbn. rewrite Q1, Q2. destruct (ex_pos e); reflexivity. }
  split.
  - intros [e' H]. apply liquidate_spec in H as (o & M & _ & Ho).
    assert (Hqs : nm_qty o = f_qty f /\ nm_side o = f_side f).
    { rewrite E2 in Ho. unfold f, closing_fill. destruct (ex_pos e); [contradiction| |]; destruct Ho as [-> ->]; cbn in *; split; try reflexivity; lia. }
    destruct Hqs as [Hq' Hs']. destruct (market_bookable _ _ _ _ V S1 M) as (H1 & H2 & H3 & H4). rewrite Hq', Hs', Hpr in *.
    split; [exact H4|]. split; [exact H1|]. apply Hbk. eapply bookable_ext; [| |exact H2]; congruence.
  - intros (Ha & Hp & Hbm). apply Hbk in Hbm.
    destruct (market_complete c (pre_check c e u) {| nm_uid := 0; nm_side := f_side f; nm_qty := f_qty f |}) as (e' & fm & E); cbn [nm_qty nm_side]; try assumption.
    + rewrite E2. apply (entry_nonneg c e (vc_scale _ V) (vc_max _ V) R).
    + rewrite Hpr. exact Hp.
    + rewrite Hpr. unfold funded, pm_of, balances in *. cbn [ub_wallet ub_pm] in *. rewrite E1, E2. exact Hfu.
    + rewrite Hpr. eapply bookable_ext; [| |exact Hbm]; assumption.
    + exists e'. unfold liquidate. rewrite E2. unfold f, closing_fill in E. cbn [f_qty f_side] in E.
      destruct (ex_pos e) as [|i|i]; [contradiction| |]; cbn in Hok, E; unfold market_new; destruct (Z.leb_spec (pi_qty i) 0); try lia; cbn [bind];
      rewrite ?Z.abs_opp, Z.abs_eq in E by lia; rewrite E; reflexivity.
Qed.

Lemma liquidation_completes c e ru u :
  valid_config c -> reachable c e -> build_update (c_dbg c) ru = Done u -> (c_dbg c = false \/ data_ok (ct_pf (c_spec c)) u) ->
  due_after c e ru ->
  let f := closing_fill c e ru in
  let m := margin_at c (f_qty f) (position_entry_price (ex_pos e)) in
  (exists e', step c e (OpUpdate ru) = Done (e', Err (ERisk Liquidate))) <->
  quantity_allowed (ct_qf (c_spec c)) (f_qty f) /\ 0 < f_price f /\ 0 < m /\ (c_dbg c = true -> pm_of e = m).
Proof.
  intros V R Hb Hd Hdue f m. assert (Hn : ex_pos e <> Neutral) by (intros E; unfold due_after, due in Hdue; rewrite E in Hdue; exact Hdue).
  pose proof (liquidate_iff c e ru u V R Hb Hn) as L. cbv zeta in L. fold f in L. fold m in L. rewrite <- L. clear L. cbn [step]. rewrite Hb. cbn [bind]. rewrite (update_unfold c e u (vc_ptick _ V) Hd).
  destruct (pre_check_fields c e u) as (_ & E2 & _). rewrite E2.
  destruct (maintenance_due c e ru u V R Hb) as [[-> _]|[_ D]]; [|contradiction].
  destruct (liquidate c (pre_check c e u)) as [e1|w]; cbn; split; intros [e' H]; try discriminate; eauto.
Qed.

Lemma liquidation_blocked c e ru u :
  valid_config c -> reachable c e -> build_update (c_dbg c) ru = Done u -> (c_dbg c = false \/ data_ok (ct_pf (c_spec c)) u) ->
  due_after c e ru -> ~ quantity_allowed (ct_qf (c_spec c)) (Z.abs (position_quantity (ex_pos e))) ->
  step c e (OpUpdate ru) = Panic PLiquidateSubmit.
Proof.
  intros V R Hb Hd Hdue Hna. assert (Hn : ex_pos e <> Neutral) by (intros E; unfold due_after, due in Hdue; rewrite E in Hdue; exact Hdue).
  cbn [step]. rewrite Hb. cbn [bind]. rewrite (update_unfold c e u (vc_ptick _ V) Hd).
  destruct (pre_check_fields c e u) as (_ & E2 & _). rewrite E2.
  destruct (maintenance_due c e ru u V R Hb) as [[-> _]|[_ D]]; [|contradiction].
  pose proof (inv_pos _ _ (reachable_inv _ _ (vc_max _ V) R)) as Hok.
  unfold liquidate. rewrite E2. destruct (ex_pos e) as [|i|i]; [contradiction| |]; cbn in Hok, Hna; unfold market_new; destruct (Z.leb_spec (pi_qty i) 0); try lia; cbn [bind];
  unfold submit_market_order; cbn [nm_qty]; rewrite ?Z.abs_opp, Z.abs_eq in Hna by lia;
  destruct (quantity_filter_exact _ (pi_qty i) (vc_qtick _ V)) as (v & -> & Hv & _); cbn [bind];
  (destruct v as [[]|err]; [exfalso; apply Hna, Hv; reflexivity | reflexivity]).
Qed.

(** A quote never panics the exchange unless a liquidation is due. *)
Lemma quote_total c e b :
  valid_config c -> reachable c e -> (c_dbg c = false \/ data_ok (ct_pf (c_spec c)) (UBba b)) -> ~ due_after c e (RBba b) ->
  exists e', step c e (OpUpdate (RBba b)) = Done (e', Ok (OutUpdates [])).
Proof.
  intros V R Hd Hn. cbn [step build_update bind]. rewrite (update_unfold c e _ (vc_ptick _ V) Hd).
  destruct (pre_check_fields c e (UBba b)) as (_ & E2 & _). rewrite E2.
  destruct (maintenance_due c e (RBba b) (UBba b) V R eq_refl) as [[_ D]|[-> _]]; [contradiction|].
  unfold check_active_orders. cbn. eauto.
Qed.

(** Without resting orders, no update panics as long as no liquidation is due and the wallet is not negative. *)
Lemma idle_total c e ru u :
  valid_config c -> reachable c e -> build_update (c_dbg c) ru = Done u -> (c_dbg c = false \/ data_ok (ct_pf (c_spec c)) u) ->
  ~ due_after c e ru -> ex_active e = [] -> 0 <= ub_wallet (balances e) ->
  exists e', step c e (OpUpdate ru) = Done (e', Ok (OutUpdates [])).
Proof.
  intros V R Hb Hd Hn Ha Hw. pose proof (reachable_sound _ _ V R) as S. cbn [step]. rewrite Hb. cbn [bind]. rewrite (update_unfold c e _ (vc_ptick _ V) Hd).
  destruct (pre_check_fields c e u) as (E1 & E2 & E3 & E4 & _). rewrite E2.
  destruct (maintenance_due c e ru u V R Hb) as [[_ D]|[-> _]]; [contradiction|].
  unfold check_active_orders. destruct (can_fill u); cbn [negb]; [|cbn; eauto].
  cbn [set_updates ex_om ex_active ex_acc]. rewrite E3, E4, (inv_books _ _ (so_inv _ _ S)), Ha. cbn [orders_eqb].
  rewrite debug_assert_true. cbn [bind fill_loop remove_executed set_active set_updates ex_om ex_active ex_acc ex_pos].
  rewrite E4, (inv_books _ _ (so_inv _ _ S)), Ha. rewrite debug_assert_true. cbn [bind]. rewrite E1.
  rewrite !mbo_bal, (so_empty _ _ S Ha). cbn [Z.eqb]. rewrite debug_assert_true. cbn [bind].
  assert (E : computed_order_margin c (set_active (set_updates (pre_check c e u) []) []) = Done 0).
  { unfold computed_order_margin. cbn [set_active set_updates ex_om ex_pos]. rewrite E4, (inv_books _ _ (so_inv _ _ S)), Ha, E2.
    rewrite om_eq; [|exact V|intros o []|apply (inv_pos _ _ (so_inv _ _ S))]. f_equal.
  }
  rewrite E. cbn [bind Z.eqb]. unfold debug_assert_m, assert_user_wallet_balance.
  destruct (Z.leb_spec 0 (margin_balance_of (ex_acc e) WALLET)) as [_|Hx]; [|cbn in Hw; lia].
  destruct (c_dbg c); cbn [bind assert]; cbn; eauto.
Qed.
