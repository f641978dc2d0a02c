(** Refinement: positions and balances follow the trade ledger of Spec. *)
From Coq Require Import Permutation.
From Verif Require Import ProofBase BookLemmas StepLemmas FillLemmas OpLemmas Inv Spec.

Definition ledger_abs (acc : accounts) (pos : position) : ledger :=
  {| l_qty := position_quantity pos; l_entry := position_entry_price pos;
     l_due := position_outstanding_fees pos;
     l_cash := bal acc WALLET + bal acc ORDER_MARGIN + bal acc POSITION_MARGIN;
     l_paid := bal acc FEE |}.

Lemma value_conv k s q p : value k s q p = conv k s q p.
Proof. destruct k; reflexivity. Qed.

Lemma conv_opp' k s q p : conv k s (- q) p = - conv k s q p.
Proof. destruct k; cbn; rewrite <- Zquot_opp_l; f_equal; lia. Qed.

Lemma pnl_gain k s entry exit q :
  pnl_pure k s entry exit q = gain k s q entry exit.
Proof. destruct k; cbn; reflexivity. Qed.

Lemma pnl_gain_opp k s entry exit q :
  pnl_pure k s entry exit (- q) = - gain k s q entry exit.
Proof. unfold pnl_pure, gain. destruct k; rewrite !conv_opp'; unfold conv, value; lia. Qed.

Lemma average_weighted s p0 w0 p1 w1 : average s p0 w0 p1 w1 = weighted s p0 w0 p1 w1.
Proof. reflexivity. Qed.

Lemma cp_ledger c acc q p sd f pos pos' acc' rate :
  pos_ok pos -> f = fee_of c q p rate ->
  cp_case c acc q p sd f pos pos' acc' ->
  ledger_abs acc' pos' =
  apply_fill (c_kind c) (c_scale c) (ledger_abs acc pos)
    {| f_side := sd; f_qty := q; f_price := p; f_rate := rate |}.
Proof.
  intros Hok Hf Hcp.
  assert (Hfee : fee (c_kind c) (c_scale c) {| f_side := sd; f_qty := q; f_price := p; f_rate := rate |} = f)
    by (subst f; unfold fee, fee_of, dmul; rewrite value_conv; reflexivity).
  unfold apply_fill. rewrite Hfee. cbn [f_price f_qty].
  destruct Hcp as [Hq Hp Hm _|i Hq Hp Hm|i Hq Hlt Hm|i Hq He Hm _|i Hi Hlt Hp Hm Hm2 Hpm];
  rewrite ?mk_pos_ok in Hok.
  - cbn [ledger_abs l_qty position_quantity Z.eqb]. unfold ledger_abs.
    rewrite !bal_transfer by discriminate. unfold delta, signed_qty.
    destruct sd; cbn -[Z.add Z.sub]; f_equal; lia.
  - assert (Hs : position_quantity (mk_pos sd i) = signed_qty {| f_side := sd; f_qty := pi_qty i; f_price := 0; f_rate := 0 |})
      by (destruct sd; reflexivity).
    unfold ledger_abs. rewrite !bal_transfer by discriminate. cbn [l_qty l_entry l_due l_cash l_paid].
    destruct (Z.eqb_spec (position_quantity (mk_pos sd i)) 0); [destruct sd; cbn in *; lia|].
    destruct (Z.eqb_spec (Z.sgn (position_quantity (mk_pos sd i))) (Z.sgn (signed_qty {| f_side := sd; f_qty := q; f_price := p; f_rate := rate |})));
      [|exfalso; destruct sd; cbn in *; lia].
    unfold delta, signed_qty, average, weighted, dmul.
    destruct sd; cbn -[Z.add Z.sub Z.abs Z.quot Z.mul]; rewrite ?Z.abs_opp, ?Z.abs_eq by lia; f_equal; lia.
  - unfold ledger_abs. rewrite !bal_settle. cbn [l_qty l_entry l_due l_cash l_paid].
    destruct sd; cbn [mk_pos side_inverted position_quantity position_entry_price position_outstanding_fees
      signed_qty f_side f_qty is_buy negb dir pi_qty pi_entry pi_fees].
    + destruct (Z.eqb_spec (- pi_qty i) 0); [lia|].
      destruct (Z.eqb_spec (Z.sgn (- pi_qty i)) (Z.sgn q)); [lia|].
      destruct (Z.eqb_spec (- pi_qty i + q) 0); [lia|].
      destruct (Z.eqb_spec (Z.sgn (- pi_qty i + q)) (Z.sgn (- pi_qty i))); [|lia].
      replace (Z.min (Z.abs (- pi_qty i)) q) with q by lia.
      replace (Z.sgn (- pi_qty i)) with (-1) by lia.
      rewrite pnl_gain_opp. f_equal; lia.
    + destruct (Z.eqb_spec (pi_qty i) 0); [lia|].
      destruct (Z.eqb_spec (Z.sgn (pi_qty i)) (Z.sgn (- q))); [lia|].
      destruct (Z.eqb_spec (pi_qty i + - q) 0); [lia|].
      destruct (Z.eqb_spec (Z.sgn (pi_qty i + - q)) (Z.sgn (pi_qty i))); [|lia].
      replace (Z.min (Z.abs (pi_qty i)) q) with q by lia.
      replace (Z.sgn (pi_qty i)) with 1 by lia.
      rewrite pnl_gain. f_equal; lia.
  - unfold ledger_abs. rewrite !bal_settle. cbn [l_qty l_entry l_due l_cash l_paid].
    destruct sd; cbn [mk_pos side_inverted position_quantity position_entry_price position_outstanding_fees
      signed_qty f_side f_qty is_buy negb dir pi_qty pi_entry pi_fees].
    + destruct (Z.eqb_spec (- pi_qty i) 0); [lia|].
      destruct (Z.eqb_spec (Z.sgn (- pi_qty i)) (Z.sgn q)); [lia|].
      destruct (Z.eqb_spec (- pi_qty i + q) 0); [|lia].
      destruct (Z.eqb_spec (Z.sgn (- pi_qty i + q)) (Z.sgn (- pi_qty i))); [lia|].
      replace (Z.min (Z.abs (- pi_qty i)) q) with q by lia.
      replace (Z.sgn (- pi_qty i)) with (-1) by lia.
      rewrite pnl_gain_opp. f_equal; lia.
    + destruct (Z.eqb_spec (pi_qty i) 0); [lia|].
      destruct (Z.eqb_spec (Z.sgn (pi_qty i)) (Z.sgn (- q))); [lia|].
      destruct (Z.eqb_spec (pi_qty i + - q) 0); [|lia].
      destruct (Z.eqb_spec (Z.sgn (pi_qty i + - q)) (Z.sgn (pi_qty i))); [lia|].
      replace (Z.min (Z.abs (pi_qty i)) q) with q by lia.
      replace (Z.sgn (pi_qty i)) with 1 by lia.
      rewrite pnl_gain. f_equal; lia.
  - unfold ledger_abs. rewrite !bal_transfer by discriminate. rewrite !bal_settle. cbn [l_qty l_entry l_due l_cash l_paid].
    unfold delta.
    destruct sd; cbn [mk_pos side_inverted position_quantity position_entry_price position_outstanding_fees
      signed_qty f_side f_qty is_buy negb dir pi_qty pi_entry pi_fees account_id_eq_dec account_id_rec account_id_rect].
    + destruct (Z.eqb_spec (- pi_qty i) 0); [lia|].
      destruct (Z.eqb_spec (Z.sgn (- pi_qty i)) (Z.sgn q)); [lia|].
      destruct (Z.eqb_spec (- pi_qty i + q) 0); [lia|].
      destruct (Z.eqb_spec (Z.sgn (- pi_qty i + q)) (Z.sgn (- pi_qty i))); [lia|].
      replace (Z.min (Z.abs (- pi_qty i)) q) with (pi_qty i) by lia.
      replace (Z.sgn (- pi_qty i)) with (-1) by lia.
      rewrite pnl_gain_opp. f_equal; cbn -[Z.add Z.sub Z.mul]; lia.
    + destruct (Z.eqb_spec (pi_qty i) 0); [lia|].
      destruct (Z.eqb_spec (Z.sgn (pi_qty i)) (Z.sgn (- q))); [lia|].
      destruct (Z.eqb_spec (pi_qty i + - q) 0); [lia|].
      destruct (Z.eqb_spec (Z.sgn (pi_qty i + - q)) (Z.sgn (pi_qty i))); [lia|].
      replace (Z.min (Z.abs (pi_qty i)) q) with (pi_qty i) by lia.
      replace (Z.sgn (pi_qty i)) with 1 by lia.
      rewrite pnl_gain. f_equal; cbn -[Z.add Z.sub Z.mul]; lia.
Qed.

(** ** Order updates *)
Lemma w_fills_bid c w u : w_bid (watch_update c w u) = w_bid w /\ w_ask (watch_update c w u) = w_ask w.
Proof. destruct u; split; reflexivity. Qed.

Lemma net_app a b : net (a ++ b) = net a + net b.
Proof. unfold net. induction a as [|f a IH]; cbn; [reflexivity|]. rewrite IH. lia. Qed.

(** The fill of one order in an update. *)
Definition fill_of (c : config) (o : limit_order) (q : Z) : fill :=
  {| f_side := lo_side o; f_qty := q; f_price := lo_price o; f_rate := ct_maker (c_spec c) |}.

Definition event_id (u : order_update) : Z :=
  match u with PartiallyFilled o => lo_id o | FullyFilled o => fl_id o end.

Lemma after_fill_qty s o q : lo_filled_qty (after_fill s o q) = lo_filled_qty o + q.
Proof. unfold lo_filled_qty, after_fill; cbn. destruct (lo_filled o); lia. Qed.

Lemma watch_event c w s o q ts :
  w_seen w (lo_id o) = lo_filled_qty o ->
  let w' := watch_update c w (fill_event s o q ts) in
  w_fills w' = w_fills w ++ [fill_of c o q] /\
  (forall i, w_seen w' i = if i =? lo_id o then lo_filled_qty o + q else w_seen w i).
Proof.
  intros Hs. unfold fill_event, fill_of. destruct (q =? lo_rem o); cbn [watch_update watch_limit w_fills w_seen done_fill
     fl_id fl_qty fl_side fl_price].
  - rewrite Hs. split; [|reflexivity]. do 3 f_equal. lia.
  - cbn [lo_id lo_side lo_price after_fill]. fold (after_fill s o q). rewrite after_fill_qty, Hs.
    split; [|reflexivity]. do 3 f_equal. lia.
Qed.

Lemma fe_ledger c u e e' o q :
  pos_ok (ex_pos e) -> fill_effect c u e e' o q ->
  ledger_abs (ex_acc e') (ex_pos e') =
  apply_fill (c_kind c) (c_scale c) (ledger_abs (ex_acc e) (ex_pos e)) (fill_of c o q).
Proof.
  intros Hok He. destruct (fe_acc _ _ _ _ _ _ He) as (acc1 & n & Hcp & _ & _ & Hacc).
  unfold fill_of. rewrite <- (cp_ledger _ _ _ _ _ _ _ _ _ _ Hok eq_refl Hcp).
  rewrite Hacc. destruct (n <? bal (ex_acc e) ORDER_MARGIN); [|reflexivity].
  unfold ledger_abs. rewrite !bal_transfer by discriminate. unfold delta. cbn -[Z.add Z.sub]. f_equal; lia.
Qed.

(** Watching the events of a chain of fills. *)
Lemma fills_watch c u e l e' w :
  fills c u e l e' -> pos_ok (ex_pos e) -> NoDup (ids l) ->
  (forall o, In o l -> w_seen w (lo_id o) = lo_filled_qty o) ->
  let w' := fold_left (watch_update c) (flat_map (event c u) l) w in
  exists fs, w_fills w' = w_fills w ++ fs /\
    ledger_abs (ex_acc e') (ex_pos e') =
      fold_left (apply_fill (c_kind c) (c_scale c)) fs (ledger_abs (ex_acc e) (ex_pos e)) /\
    position_quantity (ex_pos e') = position_quantity (ex_pos e) + net fs /\
    (forall i, ~ In i (ids l) -> w_seen w' i = w_seen w i) /\
    (forall o, In o l -> w_seen w' (lo_id o) = lo_filled_qty (refill c u o)) /\
    w_bid w' = w_bid w /\ w_ask w' = w_ask w.
Proof.
  intros H. revert w. induction H as [e|e o l e' Hq Hl IH|e o q e1 l e' Hq He Hl IH]; intros w Hok Hn Hs; cbv zeta.
  - exists []. cbn. rewrite app_nil_r. repeat split; try tauto; try lia.
  - cbn [flat_map]. rewrite (event_eq c u o), Hq. cbn [app].
    inversion Hn as [|? ? Hno Hnl]; subst.
    destruct (IH w Hok Hnl (fun x Hx => Hs x (or_intror Hx))) as (fs & Hf & Hled & Hpq & Hout & Hin & Hb & Ha).
    exists fs. split; [exact Hf|]. split; [exact Hled|]. split; [exact Hpq|]. split.
    { intros i Hi. apply Hout. intros Hx. apply Hi. right; exact Hx. }
    split; [|auto].
    intros x [<-|Hx]; [|auto]. rewrite Hout by exact Hno. rewrite refill_eq, Hq. apply Hs. left; reflexivity.
  - cbn [flat_map]. rewrite (event_eq c u o), Hq. cbn [app fold_left].
    inversion Hn as [|? ? Hno Hnl]; subst.
    set (w1 := watch_update c w (fill_event (c_scale c) o q (update_ts u))).
    destruct (watch_event c w (c_scale c) o q (update_ts u) (Hs o (or_introl eq_refl))) as [Hf1 Hs1].
    fold w1 in Hf1, Hs1.
    assert (Hok1 : pos_ok (ex_pos e1)).
    { destruct (fe_acc _ _ _ _ _ _ He) as (acc1 & n & Hcp & _). eapply cp_pos_ok; eassumption. }
    assert (Hs1' : forall x, In x l -> w_seen w1 (lo_id x) = lo_filled_qty x).
    { intros x Hx. rewrite Hs1. destruct (Z.eqb_spec (lo_id x) (lo_id o)) as [E|_].
      - exfalso. apply Hno. rewrite <- E. apply in_map; exact Hx.
      - apply Hs. right; exact Hx. }
    destruct (IH w1 Hok1 Hnl Hs1') as (fs & Hf & Hled & Hpq & Hout & Hin & Hb & Ha).
    exists (fill_of c o q :: fs). split.
    { rewrite Hf, Hf1, <- app_assoc. reflexivity. }
    split.
    { rewrite Hled, (fe_ledger _ _ _ _ _ _ Hok He). reflexivity. }
    split.
    { rewrite Hpq. destruct (fe_acc _ _ _ _ _ _ He) as (acc1 & n & Hcp & _).
      rewrite (cp_qty _ _ _ _ _ _ _ _ _ Hcp). cbn [net fold_right]. fold (net fs).
      unfold signed_qty, signed, fill_of; cbn [f_side f_qty]. lia. }
    split.
    { intros i Hi. rewrite Hout by (intros Hx; apply Hi; right; exact Hx). rewrite Hs1.
      destruct (Z.eqb_spec i (lo_id o)) as [->|_]; [|reflexivity]. exfalso; apply Hi; left; reflexivity. }
    split.
    { intros x [<-|Hx]; [|auto]. rewrite Hout by exact Hno. rewrite Hs1, Z.eqb_refl.
      rewrite refill_eq, Hq, after_fill_qty. reflexivity. }
    destruct (w_fills_bid c w (fill_event (c_scale c) o q (update_ts u))) as [Hb0 Ha0].
    fold w1 in Hb0, Ha0. split; congruence.
Qed.

(** ** The simulation relation *)
Record WInv (c : config) (e : exchange) (w : watch) : Prop := {
  wi_seen : forall o, In o (ex_active e) -> w_seen w (lo_id o) = lo_filled_qty o;
  wi_fresh : forall i, ex_next_id e <= i -> w_seen w i = 0;
  wi_bid : w_bid w = ms_bid (ex_ms e);
  wi_ask : w_ask w = ms_ask (ex_ms e);
  wi_ledger : ledger_of c (w_fills w) = ledger_abs (ex_acc e) (ex_pos e);
  wi_net : net (w_fills w) = position_quantity (ex_pos e)
}.

Lemma ledger_of_app c a b :
  ledger_of c (a ++ b) = fold_left (apply_fill (c_kind c) (c_scale c)) b (ledger_of c a).
Proof. unfold ledger_of. apply fold_left_app. Qed.

Lemma init_winv c e0 : init c = Done e0 -> WInv c e0 watch_start.
Proof.
  intros H. apply init_fields in H as (_ & Hms & _ & Hn & Hp & Ha & Ho & _ & _ & Hacc).
  constructor; rewrite ?Ha, ?Hms, ?Hp, ?Hacc; cbn; try tauto; try reflexivity.
  unfold ledger_of, ledger_abs, ledger_start, bal, margin_balance_of, net_balance. cbn. f_equal; lia.
Qed.

(** A step that changes nothing the ledger sees; new active orders must be old ones or fresh. *)
Lemma winv_quiet c e e' w :
  WInv c e w ->
  ledger_abs (ex_acc e') (ex_pos e') = ledger_abs (ex_acc e) (ex_pos e) ->
  ms_bid (ex_ms e') = ms_bid (ex_ms e) -> ms_ask (ex_ms e') = ms_ask (ex_ms e) ->
  ex_next_id e <= ex_next_id e' ->
  (forall o, In o (ex_active e') -> In o (ex_active e) \/ (ex_next_id e <= lo_id o /\ lo_filled o = Unfilled)) ->
  WInv c e' w.
Proof.
  intros [Hs Hf Hb Ha Hl Hn] Hled Hb' Ha' Hnx Hact. constructor; try congruence.
  - intros o Ho. destruct (Hact o Ho) as [Hold|[Hid Hun]]; [auto|].
    rewrite Hf by assumption. unfold lo_filled_qty. rewrite Hun. reflexivity.
  - intros i Hi. apply Hf. lia.
  - rewrite Hn. change (position_quantity (ex_pos e)) with (l_qty (ledger_abs (ex_acc e) (ex_pos e))).
    rewrite <- Hled. reflexivity.
Qed.

Lemma same_core_winv c e e' w : WInv c e w -> same_core e e' -> ex_next_id e <= ex_next_id e' -> WInv c e' w.
Proof.
  intros HW (Hms & Hacc & Hpos & Hact & _) Hn. eapply winv_quiet; [exact HW|..]; try congruence.
  intros o Ho. left. congruence.
Qed.

Lemma ledger_abs_om acc amt pos d c' :
  d <> c' -> (d = WALLET \/ d = ORDER_MARGIN \/ d = POSITION_MARGIN) ->
  (c' = WALLET \/ c' = ORDER_MARGIN \/ c' = POSITION_MARGIN) ->
  ledger_abs (transfer_pure acc d c' amt) pos = ledger_abs acc pos.
Proof.
  intros Hne Hd Hc. unfold ledger_abs. rewrite !bal_transfer by assumption. unfold delta.
  destruct Hd as [->|[->| ->]], Hc as [->|[->| ->]]; try contradiction; cbn -[Z.add Z.sub]; f_equal; lia.
Qed.

Lemma append_ledger c e e' o :
  append_effect c e e' o -> ledger_abs (ex_acc e') (ex_pos e') = ledger_abs (ex_acc e) (ex_pos e).
Proof.
  intros H. rewrite (ae_pos _ _ _ _ H). destruct (ae_acc _ _ _ _ H) as (n & _ & [(_ & ->)|(_ & -> & _)]); [reflexivity|].
  apply ledger_abs_om; [discriminate | tauto..].
Qed.

Lemma submit_limit_ledger c e o e' r :
  submit_limit_order c e o = Done (e', r) ->
  ledger_abs (ex_acc e') (ex_pos e') = ledger_abs (ex_acc e) (ex_pos e).
Proof.
  intros H. apply submit_limit_spec in H as [(err & _ & Hs & _) | (_ & _ & _ & _ & a & Ha & _)].
  - destruct Hs as (_ & -> & -> & _). reflexivity.
  - apply append_spec in Ha. destruct a as [[]|].
    + apply append_ledger in Ha. exact Ha.
    + destruct Ha as (_ & [(-> & _) | (om' & r' & _ & -> & _)]); reflexivity.
Qed.

Lemma cancel_ledger c e e' b o :
  cancel_effect c e e' b o -> ledger_abs (ex_acc e') (ex_pos e') = ledger_abs (ex_acc e) (ex_pos e).
Proof.
  intros H. rewrite (ce_pos _ _ _ _ _ H). destruct (ce_acc _ _ _ _ _ H) as (n & _ & _ & ->).
  destruct (n <? bal (ex_acc e) ORDER_MARGIN); [|reflexivity]. apply ledger_abs_om; [discriminate | tauto..].
Qed.

Lemma submit_limit_winv c e o e' r w :
  c_max c <= 10000 -> Inv c e -> nl_ok o -> WInv c e w -> submit_limit_order c e o = Done (e', r) -> WInv c e' w.
Proof.
  intros Hm HI Hok HW H. pose proof (submit_limit_ledger _ _ _ _ _ H) as Hl.
  destruct (submit_limit_book _ _ _ _ _ Hm HI Hok H) as [_ [(err & _ & Hs & Hn)|(_ & Hact & Hn & Hms & _)]].
  - eapply same_core_winv; [eassumption..|lia].
  - eapply winv_quiet; [exact HW|..]; try congruence; try lia.
    rewrite Hact. intros x Hx. apply in_app_or in Hx as [Hx|[<-|[]]]; [auto|]. right. cbn. split; [lia|reflexivity].
Qed.

Lemma cancel_winv c e e' b o w : WInv c e w -> cancel_effect c e e' b o -> WInv c e' w.
Proof.
  intros HW H. destruct (remove_with_spec _ _ _ _ (ce_active _ _ _ _ _ H)) as (_ & _ & Hp).
  eapply winv_quiet; [exact HW|..].
  - eapply cancel_ledger; eassumption.
  - rewrite (ce_ms _ _ _ _ _ H). reflexivity.
  - rewrite (ce_ms _ _ _ _ _ H). reflexivity.
  - rewrite (ce_next _ _ _ _ _ H). lia.
  - intros x Hx. left. rewrite Hp. right; assumption.
Qed.

Lemma amend_winv c e id o e' r w :
  c_max c <= 10000 -> Inv c e -> nl_ok o -> WInv c e w -> amend_limit_order c e id o = Done (e', r) -> WInv c e' w.
Proof.
  intros Hm HI Hok HW H. apply amend_spec in H. destruct (get_by_id (ex_active e) id) as [ex|].
  - destruct H as [_ H]. destruct (Z.leb_spec (lo_rem ex + (nl_rem o - (lo_rem ex + lo_filled_qty ex))) 0).
    + destruct H as [[x Hx] _]. eapply cancel_winv; eassumption.
    + destruct H as (e1 & x & Hx & Hs). eapply submit_limit_winv; [exact Hm|..|exact Hs].
      * eapply cancel_effect_inv; eassumption.
      * destruct Hok. split; cbn; lia.
      * eapply cancel_winv; eassumption.
  - destruct H as [-> _]. exact HW.
Qed.

Lemma market_winv c e e' o w :
  Inv c e -> WInv c e w -> market_effect c e e' o ->
  WInv c e' (watch_add w {| f_side := nm_side o; f_qty := nm_qty o;
      f_price := quote_price (ex_ms e) (nm_side o); f_rate := ct_taker (c_spec c) |}).
Proof.
  intros HI [Hs Hf Hb Ha Hl Hn] H. pose proof (me_cp _ _ _ _ H) as Hcp.
  constructor; cbn [watch_add w_seen w_bid w_ask w_fills].
  - rewrite (me_active _ _ _ _ H). exact Hs.
  - rewrite (me_next _ _ _ _ H). intros i Hi. apply Hf. lia.
  - rewrite (me_ms _ _ _ _ H). exact Hb.
  - rewrite (me_ms _ _ _ _ H). exact Ha.
  - rewrite ledger_of_app, Hl. cbn [fold_left]. symmetry.
    apply (cp_ledger _ _ _ _ _ _ _ _ _ (ct_taker (c_spec c)) (inv_pos _ _ HI) eq_refl Hcp).
  - rewrite net_app, Hn, (cp_qty _ _ _ _ _ _ _ _ _ Hcp). cbn. unfold signed_qty, signed; cbn [f_side f_qty]. lia.
Qed.

Lemma build_update_quote dbg r u m w :
  build_update dbg r = Done u -> w_bid w = ms_bid m -> w_ask w = ms_ask m ->
  w_bid (watch_quote w r) = ms_bid (update_market_state u m) /\
  w_ask (watch_quote w r) = ms_ask (update_market_state u m) /\
  w_seen (watch_quote w r) = w_seen w /\ w_fills (watch_quote w r) = w_fills w.
Proof.
  destruct r as [b|t|k|ts b f]; cbn [build_update]; intros H Hb Ha; inv; cbn; auto.
  unfold smart_candle_new in Hd. destruct ts as [|t0 ts]; [discriminate|].
  inv. cbn. auto.
Qed.

Lemma pre_check_winv c e u w dbg r :
  WInv c e w -> build_update dbg r = Done u -> WInv c (pre_check c e u) (watch_quote w r).
Proof.
  intros [Hs Hf Hb Ha Hl Hn] Hu.
  destruct (build_update_quote _ _ _ (ex_ms e) _ Hu Hb Ha) as (Hb' & Ha' & Hs' & Hf').
  destruct (pre_check_fields c e u) as (Hacc & Hp & Hact & _ & Hnx & _ & Hms & _).
  constructor; rewrite ?Hacc, ?Hp, ?Hact, ?Hnx, ?Hms, ?Hs', ?Hf'; assumption.
Qed.

Lemma check_active_winv c e u e' w :
  Inv c e -> WInv c e w -> check_active_orders c e u = Done e' ->
  WInv c e' (fold_left (watch_update c) (ex_updates e') w).
Proof.
  intros HI HW H. apply check_active_spec in H as [(_ & ->) | (_ & e1 & act & _ & _ & Hf & Hr & -> & _)].
  - destruct HW; constructor; assumption.
  - destruct HW as [Hs Hfr Hb Ha Hl Hn].
    destruct (fills_watch _ _ _ _ _ w Hf (inv_pos _ _ HI) (inv_nodup _ _ HI) Hs)
      as (fs & Hfs & Hled & Hpq & Hout & Hin & Hb' & Ha').
    destruct (fills_stable _ _ _ _ _ Hf) as (Hms & Hnext & _ & _ & Hupd).
    destruct (fills_active_spec _ _ _ _ _ _ Hf (inv_nodup _ _ HI) Hr) as (_ & _ & Hx).
    cbn [set_updates ex_updates ex_ms ex_next_id ex_acc ex_pos app] in *.
    cbn [set_active ex_updates]. rewrite Hupd.
    constructor; cbn [set_active ex_active ex_next_id ex_ms ex_acc ex_pos].
    + intros x Hxin. apply Hx in Hxin as (o & Ho & _ & ->). rewrite refill_id. apply Hin; assumption.
    + intros i Hi. rewrite Hout; [apply Hfr; congruence|]. intros Hii. unfold ids in Hii.
      apply in_map_iff in Hii as (o & Hid & Ho). pose proof (inv_ids _ _ HI o Ho). lia.
    + congruence.
    + congruence.
    + rewrite Hfs, ledger_of_app, Hl, Hled. reflexivity.
    + rewrite Hfs, net_app, Hn, Hpq. reflexivity.
Qed.

Lemma step_winv c e o e' r w :
  c_max c <= 10000 -> is_check o = false -> Inv c e -> WInv c e w -> step c e o = Done (e', r) ->
  WInv c e' (watch_call c w (o, r)).
Proof.
  intros Hm Hck HI HW. destruct o as [ru|sd q uid|sd p q uid|b|id sd p q uid|ru]; cbn [step]; intros H.
  - apply bind_done in H as [u [Hu H]]. apply map_out_done in H as (r0 & H & ->).
    apply update_state_spec in H as [_ H]. cbv zeta in H.
    pose proof (pre_check_winv _ _ _ _ _ _ HW Hu) as HW1.
    pose proof (pre_check_inv c e u HI) as HI1.
    destruct (check_maintenance_margin _ _ _ _) as [[]|re] eqn:Ec.
    + destruct H as [-> H]. cbn [map_result watch_call]. eapply check_active_winv; eassumption.
    + destruct H as [-> H].
      assert (re = Liquidate).
      { unfold check_maintenance_margin in Ec. destruct (ex_pos e); [discriminate| |];
        match type of Ec with (if ?b then _ else _) = _ => destruct b end; congruence. }
      subst re. cbn [map_result watch_call].
      apply liquidate_spec in H as (lo & Hme & _ & Hlo).
      pose proof (market_winv _ _ _ _ _ HI1 HW1 Hme) as HW2.
      assert (Hfill : liquidation_fill c (watch_quote w ru) =
        {| f_side := nm_side lo; f_qty := nm_qty lo;
           f_price := quote_price (ex_ms (pre_check c e u)) (nm_side lo); f_rate := ct_taker (c_spec c) |}).
      { unfold liquidation_fill. rewrite (wi_net _ _ _ HW1).
        pose proof (inv_pos _ _ HI1) as Hpo.
        destruct (ex_pos (pre_check c e u)) as [|i|i]; [contradiction| |]; destruct Hlo as [-> ->]; cbn in *.
        - destruct (Z.ltb_spec 0 (pi_qty i)); [|lia]. rewrite (wi_bid _ _ _ HW1). reflexivity.
        - destruct (Z.ltb_spec 0 (- pi_qty i)); [lia|]. rewrite (wi_ask _ _ _ HW1). f_equal; lia. }
      rewrite Hfill. exact HW2.
  - destruct (market_new sd q uid) eqn:Em; [|inv; exact HW].
    apply map_out_done in H as (r0 & H & ->). apply submit_market_spec in H. destruct r0 as [f|err].
    + destruct H as [-> H]. cbn [map_result watch_call market_into_filled fm_side fm_filled fm_avg].
      eapply market_winv; eassumption.
    + destruct H as (Hs & _ & Hc). cbn [map_result watch_call]. eapply same_core_winv; [eassumption..|].
      destruct Hc as [(? & _ & _ & ->) | (? & _ & -> & _)]; lia.
  - destruct (limit_new sd p q uid) eqn:El; [|inv; exact HW]. apply limit_new_ok in El as [Hok _].
    apply map_out_done in H as (r0 & H & ->). cbn [watch_call]. eapply submit_limit_winv; eassumption.
  - apply map_out_done in H as (r0 & H & ->). cbn [watch_call]. apply cancel_spec in H as [_ H]. destruct r0.
    + eapply cancel_winv; eassumption.
    + destruct H as [-> _]; assumption.
  - destruct (limit_new sd p q uid) eqn:El; [|inv; exact HW]. apply limit_new_ok in El as [Hok _].
    apply map_out_done in H as (r0 & H & ->). cbn [watch_call]. eapply amend_winv; eassumption.
  - discriminate.
Qed.

Lemma run_winv c ops e e' outs w :
  c_max c <= 10000 -> no_check ops -> Inv c e -> WInv c e w -> run c e ops = Done (e', outs) ->
  WInv c e' (fold_left (watch_call c) (combine ops outs) w).
Proof.
  intros Hm. revert e outs w. induction ops as [|o ops IH]; intros e outs w Hck HI HW H; cbn [run] in H.
  - inv. exact HW.
  - apply bind_done in H as [[e1 r] [H1 H]]. apply bind_done in H as [[e2 rs] [H2 H]]. inv. cbn [combine fold_left].
    eapply IH; [..|eassumption].
    + intros x Hx. apply Hck. right; exact Hx.
    + eapply step_inv; eassumption.
    + eapply step_winv; try eassumption. apply Hck. left; reflexivity.
Qed.

Lemma history_winv c ops e outs :
  0 <= c_max c <= 10000 -> no_check ops -> history c ops e outs -> WInv c e (watched c ops outs).
Proof.
  intros Hm Hck (e0 & Hi & Hr). eapply run_winv; try eassumption; [lia| |].
  - apply init_inv; [lia | assumption].
  - apply init_winv; assumption.
Qed.
