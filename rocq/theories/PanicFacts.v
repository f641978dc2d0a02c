(** Statements about panics, assembled for the properties. *)
From Verif Require Import ProofBase BookLemmas StepLemmas FillLemmas OpLemmas Inv Spec SpecBook SpecRules SpecMargin SpecConfig SpecMarket SpecPanic SpecEntry
  Scenario ScenarioPanic ScenarioEntry FilterProof OrderProof SoundProof PanicProof PanicCor SyncProof LimitProof ManyProof TotalProof.

Lemma resting_bounded c ops e outs :
  0 <= c_max c <= 10000 -> history c ops e outs ->
  Z.of_nat (length (ex_active e)) <= c_max c /\ ex_om e = ex_active e.
Proof. intros Hm H. pose proof (history_inv _ _ _ _ Hm H) as I. split; [apply (inv_len _ _ I) | apply (inv_books _ _ I)]. Qed.

Lemma good_data_by c ru u :
  pf_tick (ct_pf (c_spec c)) <> 0 -> positive_data ru -> build_update (c_dbg c) ru = Done u ->
  validate_market_update (ct_pf (c_spec c)) u = Done (Ok tt) -> good_data c ru.
Proof. intros Ht Hp Hb Hv. split; [exact Hp|]. exists u. split; [exact Hb|]. apply data_exact; assumption. Qed.

(** Histories that do not keep the reserved margin right, without any panic on the way. *)
Lemma stale_not_synced dbg : exists e outs, history (L dbg) stale_ops e outs /\ valid_config (L dbg) /\ ~ in_sync (L dbg) e /\
  order_margin_of e = 0 /\ order_margin (L dbg) (ex_active e) (ex_pos e) = Done (d 110).
Proof.
  destruct (play (L dbg) stale_ops) as [[e outs]|w] eqn:E; [|destruct dbg; vm_compute in E; discriminate].
  exists e, outs. split; [apply play_history; exact E|]. split; [apply demo_valid; [cbn; tauto | reflexivity | vm_compute; split; discriminate]|].
  destruct dbg; vm_compute in E; injection E as <- <-; (split; [intros H; vm_compute in H; discriminate|]); split; vm_compute; reflexivity.
Qed.

(** Good market data that makes an update panic, in either build. *)
Definition honest_witnesses (dbg : bool) : list (config * list op * raw_update * panic_site) :=
  [ (capped dbg, one_long ++ [OpMarket Buy (d 1) 1], RBba {| bb_bid := d 1; bb_ask := d 2; bb_ts := 3 |}, PLiquidateSubmit);
    (demo Linear dbg 10 2 6 (d 100) 10, [quote 100 101 1; OpMarket Buy (d 9) 1; quote 10 11 2],
       RTrade {| tr_price := d 80; tr_qty := d 1; tr_side := Sell; tr_ts := 3 |}, PWalletNegative);
    (T dbg, [raw_quote 4 5 1; OpLimit Buy 4 1 1], RTrade {| tr_price := 3; tr_qty := 1; tr_side := Sell; tr_ts := 2 |}, PTxAmount);
    (T dbg, truncated_ops ++ [OpLimit Sell 7 9 1], RTrade {| tr_price := 8; tr_qty := 9; tr_side := Buy; tr_ts := 2 |}, PFlipMargin) ].
Definition honest_debug : list (config * list op * raw_update * panic_site) :=
  [ (L true, stale_ops, RTrade {| tr_price := d 105; tr_qty := d 1; tr_side := Buy; tr_ts := 2 |}, PEndMarginDebug);
    (L true, stale_ops, RTrade {| tr_price := d 111; tr_qty := d 1; tr_side := Buy; tr_ts := 2 |}, PFillMarginDebug);
    (L true, uneven_ops, RTrade {| tr_price := d 80; tr_qty := d 1; tr_side := Sell; tr_ts := 2 |}, PFillMarginGrowsDebug);
    (T true, [raw_quote 4 5 1; OpMarket Buy 2 1; OpLimit Sell 7 1 1], RTrade {| tr_price := 8; tr_qty := 1; tr_side := Buy; tr_ts := 2 |}, PMarginToFreeDebug);
    (T true, truncated_ops ++ [OpLimit Sell 7 6 1], RTrade {| tr_price := 8; tr_qty := 6; tr_side := Buy; tr_ts := 2 |}, PCloseMarginDebug) ].

Definition honest_crash (dbg : bool) (w : panic_site) : Prop :=
  exists c ops ru, c_dbg c = dbg /\ good_data c ru /\ crashes c ops (OpUpdate ru) w.

Ltac honest c ops ru :=
  exists c, ops, ru; split; [reflexivity|]; split;
  [eapply good_data_by; [discriminate | vm_compute; first [split; reflexivity | reflexivity] | reflexivity | vm_compute; reflexivity]
  | apply crash_by; [first [apply tiny_valid | apply capped_valid | apply demo_valid; [cbn; tauto | reflexivity | vm_compute; split; discriminate]]
                    | vm_compute; reflexivity]].

Lemma honest_crashes dbg w : In w [PLiquidateSubmit; PWalletNegative; PTxAmount; PFlipMargin] -> honest_crash dbg w.
Proof.
  assert (K : forall x, In x (honest_witnesses dbg) -> honest_crash dbg (snd x)).
  { intros x H. cbn [honest_witnesses In] in H. destruct dbg; repeat (destruct H as [<-|H]; [match goal with |- context [(?c, ?o, ?r, _)] => cbn [snd]; honest c o r end|]); destruct H. }
  intros H. cbn in H. repeat (destruct H as [<-|H]; [eapply (K (_, _, _, _)); cbn; repeat (first [left; reflexivity | right])|]); destruct H.
Qed.
Lemma honest_crashes_debug w :
  In w [PEndMarginDebug; PFillMarginDebug; PFillMarginGrowsDebug; PMarginToFreeDebug; PCloseMarginDebug] -> honest_crash true w.
Proof.
  assert (K : forall x, In x honest_debug -> honest_crash true (snd x)).
  { intros x H. cbn [honest_debug In] in H. repeat (destruct H as [<-|H]; [match goal with |- context [(?c, ?o, ?r, _)] => cbn [snd]; honest c o r end|]); destruct H. }
  intros H. cbn in H. repeat (destruct H as [<-|H]; [eapply (K (_, _, _, _)); cbn; repeat (first [left; reflexivity | right])|]); destruct H.
Qed.

(** The open order limit for configurations of at most 10000 orders. *)
Lemma full_exact c e sd p q uid e' r :
  valid_config c -> reachable c e -> sane c e -> 0 < p -> 0 < q -> step c e (OpLimit sd p q uid) = Done (e', r) ->
  (r = Err EMaxNumberOfActiveOrders <->
   quantity_allowed (ct_qf (c_spec c)) q /\ price_allowed (c_scale c) (ct_pf (c_spec c)) (mark e) p /\
   affordable c e (fresh_order e sd p q uid) /\ ~ crosses_quote e sd p /\ Z.of_nat (length (ex_active e)) = c_max c) /\
  (c_max c <= Z.of_nat (length (ex_active e)) -> exists err, r = Err err).
Proof.
  intros V R Hs Hp Hq H. pose proof (limit_decision _ _ _ _ _ _ _ _ V R Hs Hp Hq H) as (r' & -> & Hv).
  pose proof (inv_len _ _ (reachable_inv _ _ (vc_max _ V) R)) as Hl.
  inversion Hv as [oe Hi Hn|oe Hi Hq' Hn|Hq' Hp' Hn|Hq' Hp' Ha Hc|Hq' Hp' Ha Hc Hm|Hq' Hp' Ha Hc Hm]; subst r'; cbn [map_result].
  - split; [split; [discriminate | intros (? & _); contradiction] | eauto].
  - split; [split; [discriminate | intros (_ & ? & _); contradiction] | eauto].
  - split; [split; [discriminate | intros (_ & _ & ? & _); contradiction] | eauto].
  - split; [split; [discriminate | intros (_ & _ & _ & ? & _); contradiction] | eauto].
  - split; [split; [intros _; repeat (split; [assumption|]); lia | reflexivity] | eauto].
  - split; [split; [discriminate | intros (_ & _ & _ & _ & ?); lia] | lia].
Qed.

Lemma entry_panics c e o w :
  valid_config c -> reachable c e -> limit_entry o -> step c e o = Panic w ->
  match o with OpLimit _ _ _ _ => w = PWalletNegative | _ => w = PCancelMargin \/ w = PCancelMarginGrows end.
Proof.
  intros V R Ho H. apply (reachable_step_safe _ _ _ _ V R) in H. destruct o; try contradiction; cbn in H; intuition.
Qed.

Lemma entry_crashes :
  crashes (L false) stale_ops (OpLimit Buy (d 90) (d 12) 1) PWalletNegative /\
  crashes (L false) stale_ops (OpCancel (ByUserOrderId 2)) PCancelMargin /\
  crashes (L false) stale_ops (OpAmend 1 Sell (d 111) (d 1) 1) PCancelMargin /\
  crashes (T false) tied_ops (OpCancel (ByOrderId 1)) PCancelMarginGrows /\
  crashes (T false) tied_ops (OpAmend 1 Buy 1 2 1) PCancelMarginGrows.
Proof.
  split; [exact (limit_checked _ (or_introl eq_refl))|]. split; [exact (cancel_checked _ (or_introl eq_refl))|].
  split; [exact (amend_checked _ (or_introl eq_refl))|]. split; [exact (cancel_checked _ (or_intror (or_introl eq_refl)))|].
  exact (amend_checked _ (or_intror (or_introl eq_refl))).
Qed.

(** Concrete cases. *)
Ltac played c ops :=
  let e := fresh "e" in let outs := fresh "outs" in let E := fresh "E" in
  destruct (play c ops) as [[e outs]|] eqn:E; [|vm_compute in E; discriminate];
  exists e, outs; split; [apply play_history; exact E|]; vm_compute in E; injection E as <- <-.

Lemma uneven_rests : exists e outs,
  history (L true) uneven_ops e outs /\ length (ex_active e) = 2%nat /\ c_max (L true) = 10.
Proof. played (L true) uneven_ops. split; reflexivity. Qed.
Lemma uneven_calm : exists e0 e outs,
  init (L true) = Done e0 /\ run (L true) e0 uneven_ops = Done (e, outs) /\ calm_run (L true) e0 uneven_ops /\
  in_sync (L true) e /\ order_margin_of e = d 90.
Proof.
  destruct (init (L true)) as [e0|] eqn:E0; [|vm_compute in E0; discriminate]. vm_compute in E0. injection E0 as <-.
  do 3 eexists. split; [reflexivity|]. split; [vm_compute; reflexivity|].
  split; [vm_compute; repeat split; auto | split; vm_compute; reflexivity].
Qed.
Lemma uneven_quote : exists e outs,
  history (L true) uneven_ops e outs /\ ~ due_after (L true) e (RBba {| bb_bid := d 105; bb_ask := d 106; bb_ts := 2 |}) /\
  good_data (L true) (RBba {| bb_bid := d 105; bb_ask := d 106; bb_ts := 2 |}).
Proof.
  played (L true) uneven_ops. split; [vm_compute; discriminate|].
  eapply good_data_by; [discriminate | vm_compute; split; reflexivity | reflexivity | vm_compute; reflexivity].
Qed.
Lemma many_full : exists e outs e',
  history (many true 2) (many_ops 2) e outs /\ sane (many true 2) e /\
  step (many true 2) e one_buy = Done (e', Err EMaxNumberOfActiveOrders).
Proof.
  destruct (play (many true 2) (many_ops 2)) as [[e outs]|] eqn:E; [|vm_compute in E; discriminate].
  exists e, outs. eexists. split; [apply play_history; exact E|]. vm_compute in E. injection E as <- <-.
  split; [vm_compute; repeat split; discriminate | vm_compute; reflexivity].
Qed.
