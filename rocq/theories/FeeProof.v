(** Consequences of the ledger refinement: positive fills, fees. *)
From Coq Require Import Permutation.
From Verif Require Import ProofBase BookLemmas StepLemmas FillLemmas OpLemmas Inv Spec LedgerProof.

Definition fill_pos (f : fill) : Prop := 0 < f_qty f /\ 0 < f_price f.

Lemma sumZ_app a b : sumZ (a ++ b) = sumZ a + sumZ b.
Proof. unfold sumZ. induction a as [|x a IH]; cbn; [reflexivity|]. rewrite IH. lia. Qed.

(** ** Every reported fill has a positive quantity and price *)
Lemma fills_pos c u e l e' w :
  fills c u e l e' -> NoDup (ids l) -> (forall o, In o l -> order_ok o) ->
  (forall o, In o l -> w_seen w (lo_id o) = lo_filled_qty o) ->
  Forall fill_pos (w_fills w) ->
  Forall fill_pos (w_fills (fold_left (watch_update c) (flat_map (event c u) l) w)).
Proof.
  intros H. revert w. induction H as [e|e o l e' Hq Hl IH|e o q e1 l e' Hq He Hl IH]; intros w Hn Hok Hs HF.
  - exact HF.
  - cbn [flat_map]. rewrite (event_eq c u o), Hq. cbn [app]. inversion Hn; subst.
    apply IH; try assumption; intros; (apply Hok || apply Hs); right; assumption.
  - cbn [flat_map]. rewrite (event_eq c u o), Hq. cbn [app fold_left]. inversion Hn as [|? ? Hno Hnl]; subst.
    destruct (watch_event c w (c_scale c) o q (update_ts u) (Hs o (or_introl eq_refl))) as [Hf1 Hs1].
    apply IH.
    + assumption.
    + intros x Hx; apply Hok; right; exact Hx.
    + intros x Hx. rewrite Hs1. destruct (Z.eqb_spec (lo_id x) (lo_id o)) as [E|_].
      * exfalso. apply Hno. rewrite <- E. apply in_map; exact Hx.
      * apply Hs. right; exact Hx.
    + rewrite Hf1. apply Forall_app. split; [exact HF|]. constructor; [|constructor].
      pose proof (fe_q _ _ _ _ _ _ He). destruct (Hok o (or_introl eq_refl)) as (_ & Hp & _).
      split; cbn; lia.
Qed.

Lemma market_pos c e e' o w :
  market_effect c e e' o -> Forall fill_pos (w_fills w) ->
  Forall fill_pos (w_fills (watch_add w {| f_side := nm_side o; f_qty := nm_qty o;
      f_price := quote_price (ex_ms e) (nm_side o); f_rate := ct_taker (c_spec c) |})).
Proof.
  intros H HF. cbn [watch_add w_fills]. apply Forall_app. split; [exact HF|]. constructor; [|constructor].
  split; cbn; [apply (me_qty _ _ _ _ H) | apply (me_price _ _ _ _ H)].
Qed.

(** The fill of a liquidation in terms of the market effect. *)
Lemma liquidation_fill_eq c e e' lo w :
  Inv c e -> WInv c e w -> market_effect c e e' lo ->
  match ex_pos e with
  | Neutral => False
  | Long i => nm_side lo = Sell /\ nm_qty lo = pi_qty i
  | Short i => nm_side lo = Buy /\ nm_qty lo = pi_qty i
  end ->
  liquidation_fill c w =
    {| f_side := nm_side lo; f_qty := nm_qty lo;
       f_price := quote_price (ex_ms e) (nm_side lo); f_rate := ct_taker (c_spec c) |}.
Proof.
  intros HI HW Hme Hlo. unfold liquidation_fill. rewrite (wi_net _ _ _ HW).
  pose proof (inv_pos _ _ HI) as Hpo.
  destruct (ex_pos e) as [|i|i]; [contradiction| |]; destruct Hlo as [-> ->]; cbn in *.
  - destruct (Z.ltb_spec 0 (pi_qty i)); [|lia]. rewrite (wi_bid _ _ _ HW). reflexivity.
  - destruct (Z.ltb_spec 0 (- pi_qty i)); [lia|]. rewrite (wi_ask _ _ _ HW). f_equal; lia.
Qed.

Lemma maintenance_err c b a p re : check_maintenance_margin c b a p = Err re -> re = Liquidate.
Proof.
  unfold check_maintenance_margin. destruct p; [discriminate| |];
  match goal with |- (if ?b then _ else _) = _ -> _ => destruct b end; congruence.
Qed.

Lemma step_fill_pos c e o e' r w :
  c_max c <= 10000 -> is_check o = false -> Inv c e -> WInv c e w -> step c e o = Done (e', r) ->
  Forall fill_pos (w_fills w) -> Forall fill_pos (w_fills (watch_call c w (o, r))).
Proof.
  intros Hm Hck HI HW. destruct o as [ru|sd q uid|sd p q uid|b|id sd p q uid|ru]; cbn [step]; intros H HF.
  - apply bind_done in H as [u [Hu H]]. apply map_out_done in H as (r0 & H & ->).
    apply update_state_spec in H as [_ H]. cbv zeta in H.
    pose proof (pre_check_winv _ _ _ _ _ _ HW Hu) as HW1.
    pose proof (pre_check_inv c e u HI) as HI1.
    assert (HF1 : Forall fill_pos (w_fills (watch_quote w ru)))
      by (unfold watch_quote; destruct (quote_of ru) as [[? ?]|]; exact HF).
    destruct (check_maintenance_margin _ _ _ _) as [[]|re] eqn:Ec.
    + destruct H as [-> H]. cbn [map_result watch_call].
      apply check_active_spec in H as [(_ & ->) | (_ & e1 & act & _ & _ & Hf & Hr & -> & _)].
      * exact HF1.
      * destruct (fills_stable _ _ _ _ _ Hf) as (_ & _ & _ & _ & Hupd).
        cbn [set_updates ex_updates app] in Hupd. cbn [set_active ex_updates]. rewrite Hupd.
        eapply fills_pos; [exact Hf|..].
        -- apply (inv_nodup _ _ HI1).
        -- apply (inv_ok _ _ HI1).
        -- apply (wi_seen _ _ _ HW1).
        -- exact HF1.
    + destruct H as [-> H]. apply maintenance_err in Ec; subst re. cbn [map_result watch_call].
      apply liquidate_spec in H as (lo & Hme & _ & Hlo).
      rewrite (liquidation_fill_eq _ _ _ _ _ HI1 HW1 Hme Hlo). eapply market_pos; eassumption.
  - destruct (market_new sd q uid) eqn:Em; [|inv; exact HF].
    apply map_out_done in H as (r0 & H & ->). apply submit_market_spec in H. destruct r0 as [f|err].
    + destruct H as [-> H]. cbn [map_result watch_call market_into_filled fm_side fm_filled fm_avg].
      eapply market_pos; eassumption.
    + exact HF.
  - cbn [watch_call]. destruct r as [[]|]; exact HF.
  - cbn [watch_call]. destruct r as [[]|]; exact HF.
  - cbn [watch_call]. destruct r as [[]|]; exact HF.
  - discriminate.
Qed.

(** Induction over histories from an invariant of the exchange together with the watched fills. *)
Lemma run_watch_ind (c : config) (P : exchange -> watch -> Prop) :
  c_max c <= 10000 ->
  (forall e o e' r w, is_check o = false -> Inv c e -> WInv c e w -> step c e o = Done (e', r) ->
     P e w -> P e' (watch_call c w (o, r))) ->
  forall ops e e' outs w,
  no_check ops -> Inv c e -> WInv c e w -> run c e ops = Done (e', outs) -> P e w ->
  P e' (fold_left (watch_call c) (combine ops outs) w).
Proof.
  intros Hm Hstep ops. induction ops as [|o ops IH]; intros e e' outs w Hck HI HW H HP; cbn [run] in H.
  - inv. exact HP.
  - apply bind_done in H as [[e1 r] [H1 H]]. apply bind_done in H as [[e2 rs] [H2 H]]. inv. cbn [combine fold_left].
    assert (Ho : is_check o = false) by (apply Hck; left; reflexivity).
    eapply IH; [..|eassumption|].
    + intros x Hx. apply Hck. right; exact Hx.
    + eapply step_inv; eassumption.
    + eapply step_winv; eassumption.
    + eapply Hstep; eassumption.
Qed.

Lemma reported_pos c ops e outs :
  0 <= c_max c <= 10000 -> no_check ops -> history c ops e outs -> Forall fill_pos (reported_fills c ops outs).
Proof.
  intros Hm Hck (e0 & Hi & Hr).
  refine (run_watch_ind c (fun _ w => Forall fill_pos (w_fills w)) _ _ ops e0 e outs watch_start Hck _ _ Hr _).
  - lia.
  - intros. eapply step_fill_pos; try eassumption. lia.
  - apply init_inv; [lia | assumption].
  - apply init_winv; assumption.
  - constructor.
Qed.

(** ** Fees *)
Lemma fee_nonneg k s f : 0 < s -> 0 <= f_rate f -> fill_pos f -> 0 <= fee k s f.
Proof.
  intros Hs Hr [Hq Hp]. unfold fee. apply quot_nonneg; [|assumption].
  assert (0 <= value k s (f_qty f) (f_price f)) by (rewrite value_conv; apply conv_nonneg; lia). nia.
Qed.

Lemma ledger_fees k s fs l :
  0 < s -> Forall fill_pos fs -> Forall (fun f => 0 <= f_rate f) fs ->
  0 <= l_due l -> (l_qty l = 0 -> l_due l = 0) ->
  let l' := fold_left (apply_fill k s) fs l in
  l_paid l' + l_due l' = l_paid l + l_due l + all_fees k s fs /\
  0 <= l_due l' /\ (l_qty l' = 0 -> l_due l' = 0) /\ l_paid l <= l_paid l'.
Proof.
  intros Hs. revert l. induction fs as [|f fs IH]; intros l HF HR Hd Hz; cbv zeta.
  - unfold all_fees; cbn. repeat split; try assumption; lia.
  - inversion HF as [|? ? Hf HF']; inversion HR as [|? ? Hr HR']; subst.
    pose proof (fee_nonneg k s f Hs Hr Hf) as Hfee. cbn [fold_left].
    assert (H1 : l_paid (apply_fill k s l f) + l_due (apply_fill k s l f) = l_paid l + l_due l + fee k s f /\
      0 <= l_due (apply_fill k s l f) /\ (l_qty (apply_fill k s l f) = 0 -> l_due (apply_fill k s l f) = 0) /\
      l_paid l <= l_paid (apply_fill k s l f)).
    { destruct Hf as [Hq Hp]. unfold apply_fill.
      destruct (Z.eqb_spec (l_qty l) 0) as [E|E].
      - cbn. specialize (Hz E). unfold signed_qty. destruct (f_side f); lia.
      - destruct (Z.eqb_spec (Z.sgn (l_qty l)) (Z.sgn (signed_qty f))) as [E2|E2].
        + cbn. unfold signed_qty in *; destruct (f_side f); lia.
        + cbn [l_paid l_due l_qty]. destruct (Z.eqb_spec (Z.sgn (l_qty l + signed_qty f)) (Z.sgn (l_qty l))); lia. }
    destruct H1 as (H1 & H2 & H3 & H4).
    destruct (IH _ HF' HR' H2 H3) as (I1 & I2 & I3 & I4). cbv zeta in *.
    unfold all_fees in *. cbn [map sumZ fold_right]. fold (sumZ (map (fee k s) fs)).
    repeat split; try assumption; lia.
Qed.

Lemma step_fill_rate c e o e' r w :
  Forall (fun f => f_rate f = ct_maker (c_spec c) \/ f_rate f = ct_taker (c_spec c)) (w_fills w) ->
  step c e o = Done (e', r) ->
  Forall (fun f => f_rate f = ct_maker (c_spec c) \/ f_rate f = ct_taker (c_spec c)) (w_fills (watch_call c w (o, r))).
Proof.
  intros HF _.
  assert (HU : forall l w, Forall (fun f => f_rate f = ct_maker (c_spec c) \/ f_rate f = ct_taker (c_spec c)) (w_fills w) ->
     Forall (fun f => f_rate f = ct_maker (c_spec c) \/ f_rate f = ct_taker (c_spec c)) (w_fills (fold_left (watch_update c) l w))).
  { induction l as [|x l IH]; intros w0 H0; [exact H0|]. apply IH. destruct x; cbn; apply Forall_app; split; auto. }
  assert (HQ : forall ru, w_fills (watch_quote w ru) = w_fills w)
    by (intros ru; unfold watch_quote; destruct (quote_of ru) as [[? ?]|]; reflexivity).
  unfold watch_call. destruct o; try exact HF.
  - destruct r as [[]|[| [] | | | | |]]; try exact HF.
    + apply HU. rewrite HQ. exact HF.
    + cbn [watch_add w_fills]. rewrite HQ. apply Forall_app. split; [exact HF|]. constructor; [|constructor].
      unfold liquidation_fill. destruct (0 <? _); cbn; auto.
  - destruct r as [[]|]; try exact HF. cbn. apply Forall_app. split; [exact HF|]. constructor; [cbn; auto|constructor].
Qed.

Lemma reported_rates c ops e outs :
  0 <= c_max c <= 10000 -> no_check ops -> history c ops e outs ->
  Forall (fun f => f_rate f = ct_maker (c_spec c) \/ f_rate f = ct_taker (c_spec c)) (reported_fills c ops outs).
Proof.
  intros Hm Hck (e0 & Hi & Hr).
  refine (run_watch_ind c (fun _ w => Forall (fun f => f_rate f = ct_maker (c_spec c) \/ f_rate f = ct_taker (c_spec c)) (w_fills w))
    _ _ ops e0 e outs watch_start Hck _ _ Hr _).
  - lia.
  - intros. eapply step_fill_rate; eassumption.
  - apply init_inv; [lia | assumption].
  - apply init_winv; assumption.
  - constructor.
Qed.

Lemma fees_accrue c ops e outs :
  0 < c_scale c -> 0 <= ct_maker (c_spec c) -> 0 <= ct_taker (c_spec c) ->
  0 <= c_max c <= 10000 -> no_check ops -> history c ops e outs ->
  fees_paid e + position_outstanding_fees (ex_pos e)
    = all_fees (c_kind c) (c_scale c) (reported_fills c ops outs) /\
  0 <= position_outstanding_fees (ex_pos e) /\ 0 <= fees_paid e.
Proof.
  intros Hs Hmk Htk Hm Hck H.
  pose proof (reported_pos _ _ _ _ Hm Hck H) as HF. pose proof (reported_rates _ _ _ _ Hm Hck H) as HR.
  pose proof (history_winv _ _ _ _ Hm Hck H) as HW. pose proof (wi_ledger _ _ _ HW) as Hl.
  fold (reported_fills c ops outs) in Hl. unfold ledger_of in Hl.
  assert (HR' : Forall (fun f => 0 <= f_rate f) (reported_fills c ops outs)).
  { eapply Forall_impl; [|exact HR]. cbn. intros f [-> | ->]; assumption. }
  destruct (ledger_fees (c_kind c) (c_scale c) (reported_fills c ops outs) (ledger_start (c_start c)) Hs HF HR')
    as (H1 & H2 & _ & H4); [cbn; lia | cbn; lia|].
  cbv zeta in *. rewrite Hl in *. cbn in *. unfold fees_paid. unfold bal in *. lia.
Qed.

(** Fees paid never decrease: the fee account is only ever debited. *)

Lemma settle_fee acc p m d : bal acc FEE <= bal (settle_acc acc p m d) FEE.
Proof. rewrite bal_settle. lia. Qed.

Lemma cp_fee c acc q p sd f pos pos' acc' :
  cp_case c acc q p sd f pos pos' acc' -> bal acc FEE <= bal acc' FEE.
Proof.
  destruct 1; rewrite ?bal_transfer by discriminate; rewrite ?bal_settle;
  rewrite ?bal_transfer by discriminate; unfold delta; cbn; lia.
Qed.

Lemma ledger_paid acc pos acc' pos' :
  ledger_abs acc' pos' = ledger_abs acc pos -> bal acc FEE <= bal acc' FEE.
Proof. unfold ledger_abs. intros H. injection H; intros. lia. Qed.

Lemma fills_fee c u e l e' : fills c u e l e' -> bal (ex_acc e) FEE <= bal (ex_acc e') FEE.
Proof.
  induction 1 as [e|e o l e' Hq Hl IH|e o q e1 l e' Hq He Hl IH]; [lia | exact IH |].
  destruct (fe_acc _ _ _ _ _ _ He) as (acc1 & n & Hcp & _ & _ & Hacc).
  apply cp_fee in Hcp. assert (bal (ex_acc e1) FEE = bal acc1 FEE); [|lia]. rewrite Hacc.
  destruct (n <? bal (ex_acc e) ORDER_MARGIN); [|reflexivity].
  rewrite bal_transfer by discriminate. unfold delta. cbn. lia.
Qed.

Lemma check_active_fee c e u e' : check_active_orders c e u = Done e' -> bal (ex_acc e) FEE <= bal (ex_acc e') FEE.
Proof.
  intros H. apply check_active_spec in H as [(_ & ->) | (_ & e1 & act & _ & _ & Hf & _ & -> & _)].
  - cbn. lia.
  - apply fills_fee in Hf. exact Hf.
Qed.

Lemma step_fee c e o e' r : step c e o = Done (e', r) -> bal (ex_acc e) FEE <= bal (ex_acc e') FEE.
Proof.
  destruct o as [ru|sd q uid|sd p q uid|b|id sd p q uid|ru]; cbn [step]; intros H.
  - apply bind_done in H as [u [_ H]]. apply map_out_done in H as (r0 & H & ->).
    apply update_state_spec in H as [_ H]. cbv zeta in H.
    destruct (pre_check_fields c e u) as (Ha & _). rewrite <- Ha.
    destruct (check_maintenance_margin _ _ _ _).
    + destruct H as [_ H]. eapply check_active_fee; eassumption.
    + destruct H as [_ H]. apply liquidate_spec in H as (lo & Hme & _). eapply cp_fee. apply (me_cp _ _ _ _ Hme).
  - destruct (market_new sd q uid); [|inv; lia].
    apply map_out_done in H as (r0 & H & ->). apply submit_market_spec in H.
    destruct r0; [destruct H as [_ H]; eapply cp_fee; apply (me_cp _ _ _ _ H)|].
    destruct H as ((_ & -> & _) & _). lia.
  - destruct (limit_new sd p q uid); [|inv; lia].
    apply map_out_done in H as (r0 & H & ->). eapply ledger_paid, submit_limit_ledger; eassumption.
  - apply map_out_done in H as (r0 & H & ->). apply cancel_spec in H as [_ H]. destruct r0.
    + eapply ledger_paid, cancel_ledger; eassumption.
    + destruct H as [-> _]. lia.
  - destruct (limit_new sd p q uid); [|inv; lia].
    apply map_out_done in H as (r0 & H & ->). apply amend_spec in H.
    destruct (get_by_id (ex_active e) id) as [ex|]; [|destruct H as [-> _]; lia].
    destruct H as [_ H]. destruct (_ <=? 0).
    + destruct H as [[x Hx] _]. eapply ledger_paid, cancel_ledger; eassumption.
    + destruct H as (e1 & x & Hx & Hs). apply cancel_ledger, ledger_paid in Hx.
      apply submit_limit_ledger, ledger_paid in Hs. lia.
  - apply bind_done in H as [u [_ H]]. apply bind_done in H as [e1 [H H1]]. inv.
    eapply check_active_fee; eassumption.
Qed.
