(** Statements about market orders and the wallet, assembled for the properties. *)
From Coq Require Import Permutation.
From Verif Require Import ProofBase BookLemmas StepLemmas FillLemmas OpLemmas Inv Spec SpecBook SpecRules SpecMargin SpecConfig SpecMarket SpecPanic
  SpecEntry Scenario ScenarioPanic ScenarioEntry LedgerProof FeeProof FilterProof MarginProof EntryProof OrderProof BookProof SoundProof PanicProof PanicCor MarketProof LimitProof LiqProof TotalProof PanicFacts
  EntryFacts.

(** ** C17 *)
Lemma market_step c e sd q uid e' f :
  step c e (OpMarket sd q uid) = Done (e', Ok (OutMarket f)) ->
  f = receipt e sd q uid (taker_price e sd) /\ market_effect c e e' {| nm_uid := uid; nm_side := sd; nm_qty := q |}.
Proof.
  intros H. cbn [step] in H. unfold market_new in H. destruct (Z.leb_spec q 0); [discriminate|].
  apply map_out_done in H as (rr & H & Hr). apply submit_market_spec in H. destruct rr; [|discriminate]. injection Hr as ->. destruct H as [-> M].
  split; [reflexivity | exact M].
Qed.
Lemma market_filled c e sd q uid e' f :
  valid_config c -> reachable c e -> step c e (OpMarket sd q uid) = Done (e', Ok (OutMarket f)) ->
  f = receipt e sd q uid (taker_price e sd) /\ 0 < taker_price e sd /\
  position_quantity (ex_pos e') = position_quantity (ex_pos e) + signed_by sd q /\
  statement_of e' = apply_fill (c_kind c) (c_scale c) (statement_of e)
    {| f_side := sd; f_qty := q; f_price := taker_price e sd; f_rate := ct_taker (c_spec c) |} /\
  ex_active e' = ex_active e /\ order_margin_of e' = order_margin_of e /\ ex_ms e' = ex_ms e /\ ex_next_id e' = ex_next_id e + 1.
Proof.
  intros V R H. destruct (market_step _ _ _ _ _ _ _ H) as [Hf M]. pose proof (inv_pos _ _ (reachable_inv _ _ (vc_max _ V) R)) as Hpo.
  pose proof (me_cp _ _ _ _ M) as Hcp. cbn [nm_qty nm_side] in Hcp.
  split; [exact Hf|]. split; [apply (me_price _ _ _ _ M)|]. split; [exact (cp_qty _ _ _ _ _ _ _ _ _ Hcp)|].
  split; [rewrite !statement_abs; exact (cp_ledger _ _ _ _ _ _ _ _ _ _ Hpo eq_refl Hcp)|].
  split; [apply (me_active _ _ _ _ M)|]. split; [exact (cp_om _ _ _ _ _ _ _ _ _ Hcp)|]. split; [apply (me_ms _ _ _ _ M) | apply (me_next _ _ _ _ M)].
Qed.

(** Which error a rejected market order gets. *)
Lemma market_rejected c e sd q uid e' err :
  valid_config c -> reachable c e -> 0 < q -> step c e (OpMarket sd q uid) = Done (e', Err err) ->
  (~ quantity_allowed (ct_qf (c_spec c)) q /\ exists oe, err = EOrder oe /\ In oe quantity_errors) \/
  (quantity_allowed (ct_qf (c_spec c)) q /\ err = ERisk NotEnoughAvailableBalance /\
   (0 < taker_price e sd -> ~ funded c e sd q (taker_price e sd)) /\
   (same_side sd (ex_pos e) = false -> Z.abs (position_quantity (ex_pos e)) < q)).
Proof.
  intros V R Hq H. pose proof (inv_pos _ _ (reachable_inv _ _ (vc_max _ V) R)) as Hpo. cbn [step] in H. unfold market_new in H. destruct (Z.leb_spec q 0); [lia|].
  apply map_out_done in H as (rr & H & Hr). apply submit_market_spec in H. destruct rr as [|er]; [discriminate|]. injection Hr as ->.
  destruct H as (_ & _ & [(oe & -> & Hv & _)|(re & -> & _ & Hv & Hc)]); cbn [nm_qty nm_side] in *.
  - left. split; [|exists oe; split; [reflexivity|]; eapply qty_error; [apply (vc_qtick _ V) | exact Hv]].
    eapply qty_error; [apply (vc_qtick _ V) | exact Hv].
  - right. split; [eapply qty_fine; [apply (vc_qtick _ V) | exact Hv]|].
    assert (E : re = NotEnoughAvailableBalance).
    { unfold check_market_order, check_market_open, check_market_reduce in Hc. destruct sd, (ex_pos e); try destruct (_ <=? _); try discriminate;
      apply bind_done in Hc as [n [_ Hc]]; injection Hc as Hc; destruct (_ <? _); congruence. }
    subst re. split; [reflexivity|]. split.
    + intros Hp. destruct (check_funded c e sd q (taker_price e sd) Hpo Hp) as (v & Hv' & _ & Hn). apply Hn.
      change (taker_price e sd) with (quote_price (ex_ms e) sd) in Hv'. rewrite Hc in Hv'. congruence.
    + intros Hs. unfold check_market_order, check_market_reduce in Hc. destruct sd, (ex_pos e) as [|i|i]; cbn in Hs; try discriminate; cbn [position_quantity];
      cbn in Hpo; rewrite ?Z.abs_opp, Z.abs_eq by lia; destruct (Z.leb_spec q (pi_qty i)); try discriminate; lia.
Qed.

(** ** C18, C19 *)
Lemma opening_funded c e sd q uid e' f :
  valid_config c -> reachable c e -> step c e (OpMarket sd q uid) = Done (e', Ok (OutMarket f)) ->
  same_side sd (ex_pos e) = true ->
  wallet_of e' = wallet_of e - margin_at c q (taker_price e sd) /\ taker_fee c q (taker_price e sd) <= wallet_of e'.
Proof.
  intros V R H Hs. destruct (market_step _ _ _ _ _ _ _ H) as [_ M]. pose proof (reachable_sound _ _ V R) as S.
  destruct (market_bookable _ _ _ _ V S M) as (_ & _ & Hf & _). pose proof (me_cp _ _ _ _ M) as Hcp. cbn [nm_qty nm_side] in *.
  change (quote_price (ex_ms e) sd) with (taker_price e sd) in *. unfold funded in Hf. rewrite Hs in Hf. fold (taker_fee c q (taker_price e sd)) in Hf.
  assert (Hw : wallet_of e' = wallet_of e - margin_at c q (taker_price e sd)).
  { change (wallet_of e') with (bal (ex_acc e') WALLET). change (wallet_of e) with (bal (ex_acc e) WALLET). rewrite margin_at_of.
    destruct Hcp as [_ _ Hm Hd|i _ _ Hm|i _ Hlt Hm|i _ Heq Hm Hd|i Hi Hlt _ Hm Hm2 Hpm];
    try (destruct sd; cbn in Hs; discriminate); rewrite bal_transfer by discriminate; unfold delta; cbn; lia. }
  split; [exact Hw|]. change (ub_wallet (balances e)) with (wallet_of e) in Hf. lia.
Qed.
Lemma taker_fee_nonneg c q p : 0 < c_scale c -> 0 <= ct_taker (c_spec c) -> 0 < p -> 0 <= q -> 0 <= taker_fee c q p.
Proof. intros. unfold taker_fee. apply Z.quot_pos; [|lia]. apply Z.mul_nonneg_nonneg; [apply value_nonneg; assumption | assumption]. Qed.

Lemma reducing_admitted c e sd q uid e' err :
  valid_config c -> reachable c e -> same_side sd (ex_pos e) = false -> q <= Z.abs (position_quantity (ex_pos e)) ->
  step c e (OpMarket sd q uid) = Done (e', Err err) ->
  exists oe, err = EOrder oe /\ (q <= 0 \/ ~ quantity_allowed (ct_qf (c_spec c)) q).
Proof.
  intros V R Hs Hq H. destruct (Z.leb_spec q 0).
  - cbn [step] in H. unfold market_new in H. destruct (Z.leb_spec q 0); [|lia]. injection H as _ <-. eauto.
  - destruct (market_rejected c e sd q uid e' err V R ltac:(lia) H) as [(Hn & oe & -> & _)|(_ & _ & _ & Hc)]; [eauto|]. specialize (Hc Hs). lia.
Qed.

(** ** C20 *)
Lemma append_wallet c e e' o : append_effect c e e' o -> 0 <= bal (ex_acc e) WALLET -> 0 <= bal (ex_acc e') WALLET.
Proof. intros A H. destruct (ae_acc _ _ _ _ A) as (n & _ & [(_ & ->)|(_ & _ & H' & _)]); assumption. Qed.
Lemma cancel_wallet c e e' b o : cancel_effect c e e' b o -> bal (ex_acc e) WALLET <= bal (ex_acc e') WALLET.
Proof.
  intros C. destruct (ce_acc _ _ _ _ _ C) as (n & _ & Hn & ->). destruct (Z.ltb_spec n (bal (ex_acc e) ORDER_MARGIN)); [|lia].
  rewrite bal_transfer by discriminate. unfold delta; cbn. lia.
Qed.
Lemma submit_wallet c e o e' r : submit_limit_order c e o = Done (e', r) -> 0 <= bal (ex_acc e) WALLET -> 0 <= bal (ex_acc e') WALLET.
Proof.
  intros H Hw. apply submit_limit_spec in H as [(err & _ & Hs & _) | (_ & _ & _ & _ & a & Ha & _)].
  - destruct Hs as (_ & -> & _). exact Hw.
  - apply append_spec in Ha. destruct a as [[]|].
    + apply append_wallet in Ha; [exact Ha | exact Hw].
    + destruct Ha as (_ & [(-> & _) | (om' & r' & _ & -> & _)]); exact Hw.
Qed.

(** Only a market order against the position and a liquidation can make the wallet negative. *)
Lemma wallet_guarded c e o e' r :
  valid_config c -> 0 <= ct_taker (c_spec c) -> reachable c e -> 0 <= wallet_of e -> step c e o = Done (e', r) -> wallet_of e' < 0 ->
  r = Err (ERisk Liquidate) \/
  exists sd q uid, o = OpMarket sd q uid /\ same_side sd (ex_pos e) = false /\ exists f, r = Ok (OutMarket f).
Proof.
  intros V Ht R Hw H Hn. pose proof (reachable_inv _ _ (vc_max _ V) R) as I.
  change (wallet_of e) with (bal (ex_acc e) WALLET) in Hw. change (wallet_of e') with (bal (ex_acc e') WALLET) in Hn.
  destruct o as [ru|sd q uid|sd p q uid|b|i sd p q uid|ru].
  - destruct r as [out0|err].
    + exfalso. cbn [step] in H. apply bind_done in H as [u [Hu H]]. apply map_out_done in H as (rr & H & Hr).
      apply update_state_spec in H as [_ H]. cbv zeta in H. destruct (pre_check_fields c e u) as (E1 & _).
      destruct (check_maintenance_margin _ _ _ _); destruct H as [-> H]; [|discriminate].
      apply check_active_spec in H as [(_ & ->)|(_ & e1 & act & _ & _ & _ & _ & _ & H0 & _)]; [|lia]. cbn in Hn. rewrite E1 in Hn. lia.
    + left. 
      cbn [step] in H. apply bind_done in H as [u [Hu H]]. apply map_out_done in H as (rr & H & Hr).
      apply update_state_spec in H as [_ H]. cbv zeta in H. destruct (check_maintenance_margin _ _ _ _) eqn:E; destruct H as [-> H]; cbn in Hr; [discriminate|].
      injection Hr as ->. rewrite (maintenance_err _ _ _ _ _ E). reflexivity.
  - right. exists sd, q, uid. split; [reflexivity|]. destruct r as [[l|f|l|]|err].
    1,3,4: exfalso; cbn [step] in H; destruct (market_new sd q uid); [|discriminate]; apply map_out_done in H as (rr & _ & Hr); destruct rr; discriminate.
    + destruct (same_side sd (ex_pos e)) eqn:Es; [|split; eauto]. exfalso. destruct (opening_funded _ _ _ _ _ _ _ V R H Es) as [_ Hf].
      destruct (market_step _ _ _ _ _ _ _ H) as [_ M]. pose proof (me_qty _ _ _ _ M) as Hq. pose proof (me_price _ _ _ _ M) as Hp. cbn in Hq, Hp.
      pose proof (taker_fee_nonneg c q (taker_price e sd) (vc_scale _ V) Ht Hp ltac:(lia)). change (wallet_of e') with (bal (ex_acc e') WALLET) in Hf. lia.
    + exfalso. pose proof (rejected_inert _ _ (OpMarket sd q uid) _ _ (vc_max _ V) R Logic.I H) as ((Ha & _) & _). rewrite Ha in Hn. lia.
  - exfalso. cbn [step] in H. destruct (limit_new sd p q uid) as [l|]; [|inv; lia]. apply map_out_done in H as (rr & H & _).
    apply submit_wallet in H; [lia | exact Hw].
  - exfalso. cbn [step] in H. apply map_out_done in H as (rr & H & _). apply cancel_spec in H as [_ H]. destruct rr.
    + apply cancel_wallet in H. lia.
    + destruct H as (-> & _). lia.
  - exfalso. cbn [step] in H. destruct (limit_new sd p q uid) as [l|]; [|inv; lia]. apply map_out_done in H as (rr & H & _).
    apply amend_spec in H. destruct (get_by_id (ex_active e) i) as [x|]; [|destruct H as [-> _]; lia].
    destruct H as [_ H]. destruct (_ <=? 0).
    + destruct H as [[y Hy] _]. apply cancel_wallet in Hy. lia.
    + destruct H as (e1 & y & Hy & H). apply cancel_wallet in Hy. apply submit_wallet in H; lia.
  - exfalso. cbn [step] in H. apply bind_done in H as [u [Hu H]]. apply bind_done in H as [e1 [H Hr]]. injection Hr as <- _.
    apply check_active_spec in H as [(_ & ->)|(_ & e2 & act & _ & _ & _ & _ & _ & H0 & _)]; [cbn in Hn|]; lia.
Qed.

(** The flip of a losing position. *)
Lemma flip_negative dbg : exists e outs e' f,
  valid_config (L dbg) /\ history (L dbg) falling_ops e outs /\ 0 <= wallet_of e /\
  step (L dbg) e (OpMarket Sell (d 25) 2) = Done (e', Ok (OutMarket f)) /\ wallet_of e' < 0.
Proof.
  destruct (play (L dbg) falling_ops) as [[e outs]|] eqn:E; [|destruct dbg; vm_compute in E; discriminate].
  exists e, outs. do 2 eexists. split; [apply demo_valid; [cbn; tauto | reflexivity | vm_compute; split; discriminate]|].
  split; [apply play_history; exact E|].
  destruct dbg; vm_compute in E; injection E as <- <-; (split; [vm_compute; discriminate|]); (split; [vm_compute; reflexivity|]); vm_compute; reflexivity.
Qed.
(** A liquidation after a jump of the price. *)
Lemma gap_negative dbg : exists e outs e',
  valid_config (geared dbg) /\ history (geared dbg) geared_ops e outs /\ 0 <= wallet_of e /\
  step (geared dbg) e (quote 10 11 2) = Done (e', Err (ERisk Liquidate)) /\ wallet_of e' < 0.
Proof.
  destruct (play (geared dbg) geared_ops) as [[e outs]|] eqn:E; [|destruct dbg; vm_compute in E; discriminate].
  exists e, outs. eexists. split; [apply demo_valid; [cbn; tauto | reflexivity | vm_compute; split; discriminate]|].
  split; [apply play_history; exact E|].
  destruct dbg; vm_compute in E; injection E as <- <-; (split; [vm_compute; discriminate|]); (split; [vm_compute; reflexivity|]); vm_compute; reflexivity.
Qed.

(** ** Cases *)
Lemma demo_L dbg : valid_config (L dbg).
Proof. apply demo_valid; [cbn; tauto | reflexivity | vm_compute; split; discriminate]. Qed.
Definition opened_ops : list op := [quote 100 101 1].
Lemma opens : exists e outs, history (L true) opened_ops e outs /\ same_side Buy (ex_pos e) = true /\
  (exists e' f, step (L true) e (OpMarket Buy (d 5) 1) = Done (e', Ok (OutMarket f)) /\ wallet_of e' = d 495) /\
  exists e' err, step (L true) e (OpMarket Buy (d 11) 1) = Done (e', Err (ERisk err)).
Proof.
  played (L true) opened_ops. split; [reflexivity|]. split.
  - do 2 eexists. split; [vm_compute; reflexivity | vm_compute; reflexivity].
  - do 2 eexists. vm_compute. reflexivity.
Qed.
(** A loss larger than the wallet does not stop a reducing order; only its quantity can. *)
Lemma reduces : exists e outs, history (L true) falling_ops e outs /\ same_side Sell (ex_pos e) = false /\
  (exists e' f, step (L true) e (OpMarket Sell (d 9) 2) = Done (e', Ok (OutMarket f)) /\ ex_pos e' = Neutral) /\
  exists e' oe, step (L true) e (OpMarket Sell 1 2) = Done (e', Err (EOrder oe)).
Proof.
  played (L true) falling_ops. split; [reflexivity|]. split.
  - do 2 eexists. split; [vm_compute; reflexivity | vm_compute; reflexivity].
  - do 2 eexists. vm_compute. reflexivity.
Qed.
