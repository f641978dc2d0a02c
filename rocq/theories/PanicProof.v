(** Which assertions can fire. *)
From Coq Require Import Permutation Sorted.
From Verif Require Import ProofBase BookLemmas StepLemmas FillLemmas OpLemmas Inv Spec SpecMargin SpecConfig SpecPanic
  MarginProof FilterProof OrderProof SoundProof.

Definition safe {A} (L : list panic_site) (m : outcome A) : Prop := forall w, m = Panic w -> In w L.

Lemma safe_done {A} L (a : A) : safe L (Done a).
Proof. intros w H; discriminate. Qed.
Lemma safe_eq {A} L (m : outcome A) a : m = Done a -> safe L m.
Proof. intros -> w H; discriminate. Qed.
Lemma safe_bind {A B} L (m : outcome A) (k : A -> outcome B) :
  safe L m -> (forall a, m = Done a -> safe L (k a)) -> safe L (bind m k).
Proof.
  intros Hm Hk w H. destruct m as [a|w']; cbn in H.
  - apply (Hk a eq_refl _ H).
  - injection H as ->. apply Hm. reflexivity.
Qed.
Lemma safe_assert L b p : (b = false -> In p L) -> safe L (assert b p).
Proof. intros H w E. unfold assert in E. destruct b; [discriminate|]. injection E as <-. auto. Qed.
Lemma safe_dassert L dbg b p : (dbg = true -> b = false -> In p L) -> safe L (debug_assert dbg b p).
Proof. intros H w E. unfold debug_assert in E. destruct dbg; [|discriminate]. eapply safe_assert; [|exact E]. auto. Qed.
Lemma safe_dassert_m L dbg m p :
  (dbg = true -> safe L m) -> (dbg = true -> m = Done false -> In p L) -> safe L (debug_assert_m dbg m p).
Proof.
  intros Hm H w E. unfold debug_assert_m in E. destruct dbg; [|discriminate].
  destruct m as [b|x]; cbn in E.
  - eapply safe_assert; [|exact E]. intros ->. auto.
  - injection E as <-. apply Hm; reflexivity.
Qed.
Lemma safe_weaken {A} L L' (m : outcome A) : safe L m -> incl L L' -> safe L' m.
Proof. intros H Hi w E. apply Hi, H, E. Qed.

Ltac site := cbn; tauto.

Lemma safe_transfer L dbg acc dd cc amt :
  debit_sum acc = credit_sum acc -> dd <> cc -> (amt <= 0 -> In PTxAmount L) -> safe L (transfer dbg acc dd cc amt).
Proof.
  intros Hs Hd Ha. destruct (Z.ltb_spec 0 amt).
  - eapply safe_eq. apply transfer_ok; assumption.
  - intros w E. unfold transfer, transaction_new in E. destruct (Z.ltb_spec 0 amt); [lia|]. cbn in E.
    injection E as <-. auto.
Qed.
Lemma transfer_keeps dbg acc dd cc amt acc' :
  transfer dbg acc dd cc amt = Done acc' -> debit_sum acc = credit_sum acc -> debit_sum acc' = credit_sum acc'.
Proof. intros H. eapply tpath_sums. eapply transfer_tpath; eassumption. Qed.

Lemma safe_convert L k s q p : (p = 0 -> In PDivByZero L) -> safe L (convert_from k s q p).
Proof.
  intros H. destruct (Z.eq_dec p 0) as [->|Hp].
  - intros w E. destruct k; cbn in E; [discriminate|]. injection E as <-. auto.
  - eapply safe_eq. apply convert_from_pos; assumption.
Qed.

Lemma safe_inner_new c acc q p f :
  debit_sum acc = credit_sum acc -> 0 < q -> 0 < p -> safe position_sites (inner_new c acc q p f).
Proof.
  intros Hs Hq Hp. unfold inner_new. apply safe_bind; [apply safe_assert; intros; lia|]. intros _ _.
  apply safe_bind; [apply safe_assert; intros; lia|]. intros _ _.
  apply safe_bind; [apply safe_convert; intros; site|]. intros v _.
  apply safe_bind; [apply safe_transfer; [assumption | discriminate | intros; site]|]. intros. apply safe_done.
Qed.

Lemma safe_increase c i acc q p f :
  debit_sum acc = credit_sum acc -> 0 < q -> 0 < p -> 0 < pi_qty i -> safe position_sites (increase_contracts c i acc q p f).
Proof.
  intros Hs Hq Hp Hi. unfold increase_contracts. apply safe_bind; [apply safe_assert; intros; lia|]. intros _ _.
  apply safe_bind; [apply safe_assert; intros; lia|]. intros _ _.
  apply safe_bind; [apply safe_convert; intros; site|]. intros v _.
  apply safe_bind; [eapply safe_eq, new_weighted_price_ok; lia|]. intros v' _.
  apply safe_bind; [apply safe_transfer; [assumption | discriminate | intros; site]|]. intros. apply safe_done.
Qed.

Lemma safe_pnl k s a b q : safe position_sites (pnl k s a b q).
Proof.
  unfold pnl. destruct (q =? 0); [apply safe_done|].
  destruct k; (apply safe_bind; [apply safe_convert; intros; site|]; intros;
    apply safe_bind; [apply safe_convert; intros; site|]; intros; apply safe_done).
Qed.

Lemma safe_decrease c i acc q p long f :
  debit_sum acc = credit_sum acc -> 0 < q <= pi_qty i -> safe position_sites (decrease_contracts c i acc q p long f).
Proof.
  intros Hs Hq. unfold decrease_contracts. apply safe_bind; [apply safe_assert; intros; lia|]. intros _ _.
  apply safe_bind; [apply safe_assert; intros; lia|]. intros _ _.
  apply safe_bind; [apply safe_dassert; intros; lia|]. intros _ _.
  apply safe_bind; [apply safe_pnl|]. intros profit _.
  apply safe_bind.
  { destruct (profit ?= 0); [apply safe_done | |]; (apply safe_transfer; [assumption | discriminate | intros; site]). }
  intros acc1 H1. assert (Hs1 : debit_sum acc1 = credit_sum acc1).
  { destruct (profit ?= 0); [injection H1 as <-; assumption | |]; eapply transfer_keeps; eassumption. }
  apply safe_bind; [apply safe_convert; intros; site|]. intros v _.
  apply safe_bind; [apply safe_dassert; intros; site|]. intros _ _.
  apply safe_bind; [apply safe_transfer; [assumption | discriminate | intros; site]|]. intros acc2 H2.
  pose proof (transfer_keeps _ _ _ _ _ _ H2 Hs1).
  destruct (0 <? pi_fees i + f); [|apply safe_done].
  apply safe_bind; [apply safe_transfer; [assumption | discriminate | intros; site]|]. intros. apply safe_done.
Qed.

Lemma decrease_keeps c i acc q p long f j acc' :
  decrease_contracts c i acc q p long f = Done (j, acc') -> debit_sum acc = credit_sum acc -> debit_sum acc' = credit_sum acc'.
Proof. intros H. apply decrease_spec in H as (_ & Hm & _ & ->). apply tpath_sums, settle_tpath, Hm. Qed.

Lemma safe_change_position c pos acc q p sd f :
  debit_sum acc = credit_sum acc -> 0 < q -> 0 < p -> pos_ok pos ->
  (c_dbg c = true -> pos = Neutral -> bal acc POSITION_MARGIN = 0) ->
  safe position_sites (change_position c pos acc q p sd f).
Proof.
  intros Hs Hq Hp Hok Hf. unfold change_position.
  apply safe_bind; [apply safe_dassert; intros; lia|]. intros _ _.
  assert (Hdec : forall i long, 0 < pi_qty i -> forall k : position_inner * accounts -> outcome (position * accounts),
    (forall j acc1, decrease_contracts c i acc (Z.min q (pi_qty i)) p long f = Done (j, acc1) -> safe position_sites (k (j, acc1))) ->
    safe position_sites (bind (decrease_contracts c i acc (Z.min q (pi_qty i)) p long f) k)).
  { intros i long Hi k Hk. apply safe_bind; [apply safe_decrease; [assumption | lia]|]. intros [j acc1] Hd. apply Hk; exact Hd. }
  assert (Hred : forall i long (mk mk' : position_inner -> position), 0 < pi_qty i ->
    safe position_sites
      (match q ?= pi_qty i with
       | Lt => '(i0, acc1) <- decrease_contracts c i acc q p long f;; Done (mk i0, acc1)
       | Eq => '(i0, acc1) <- decrease_contracts c i acc q p long f;;
               _ <- debug_assert (c_dbg c) (margin_balance_of acc1 POSITION_MARGIN =? 0) PCloseMarginDebug;; Done (Neutral, acc1)
       | Gt => '(i0, acc1) <- decrease_contracts c i acc (pi_qty i) p long f;;
               _ <- assert (pi_qty i0 =? 0) PFlipQty;;
               _ <- assert (margin_balance_of acc1 POSITION_MARGIN =? 0) PFlipMargin;;
               '(j, acc2) <- inner_new c acc1 (q - pi_qty i) p 0;; Done (mk' j, acc2)
       end)).
  { intros i long mk mk' Hi. destruct (Z.compare_spec q (pi_qty i)).
    - apply safe_bind; [apply safe_decrease; [assumption | lia]|]. intros [j acc1] _.
      apply safe_bind; [apply safe_dassert; intros; site|]. intros. apply safe_done.
    - apply safe_bind; [apply safe_decrease; [assumption | lia]|]. intros [j acc1] _. apply safe_done.
    - apply safe_bind; [apply safe_decrease; [assumption | lia]|]. intros [j acc1] Hd.
      pose proof (decrease_keeps _ _ _ _ _ _ _ _ _ Hd Hs) as Hs1.
      apply decrease_spec in Hd as (_ & _ & -> & _). cbn [pi_qty].
      apply safe_bind; [apply safe_assert; intros; lia|]. intros _ _.
      apply safe_bind; [apply safe_assert; intros; site|]. intros _ _.
      apply safe_bind; [apply safe_inner_new; [assumption | lia | assumption]|]. intros [k acc2] _. apply safe_done. }
  destruct pos as [|i|i].
  - apply safe_bind. { apply safe_dassert. intros E1 E2. specialize (Hf E1 eq_refl). unfold bal in Hf. lia. }
    intros _ _. apply safe_bind; [apply safe_inner_new; assumption|]. intros [j acc1] _. destruct sd; apply safe_done.
  - destruct sd.
    + apply safe_bind; [apply safe_increase; assumption|]. intros [j acc1] _. apply safe_done.
    + apply (Hred i true Long Short Hok).
  - destruct sd.
    + apply (Hred i false Short Long Hok).
    + apply safe_bind; [apply safe_increase; assumption|]. intros [j acc1] _. apply safe_done.
Qed.

Lemma safe_order_margin c b pos L : valid_config c -> good_book b -> pos_ok pos -> safe L (order_margin c b pos).
Proof. intros. eapply safe_eq. apply om_eq; assumption. Qed.

Lemma safe_log_trade L c t sd p q : 0 < p -> 0 < q -> safe L (log_trade c t sd p q).
Proof.
  intros. unfold log_trade. apply safe_bind; [apply safe_assert; intros; lia|]. intros _ _.
  apply safe_bind; [apply safe_convert; intros; lia|]. intros. apply safe_done.
Qed.

(** ** Order entry *)
Lemma validate_qty_done c q : valid_config c -> exists v, validate_order_quantity (ct_qf (c_spec c)) q = Done v.
Proof.
  intros V. unfold validate_order_quantity. destruct (q =? 0); [eauto|]. destruct (match qf_max _ with Some _ => _ | None => _ end); [eauto|].
  destruct (match qf_min _ with Some _ => _ | None => _ end) eqn:E; [eauto|]. cbv zeta.
  rewrite drem_spec by apply (vc_qtick _ V). cbn [bind]. destruct (negb _); eauto.
Qed.
Lemma validate_price_done c p m : valid_config c -> exists v, validate_limit_price (c_scale c) (ct_pf (c_spec c)) p m = Done v.
Proof.
  intros V. unfold validate_limit_price. destruct (p <=? 0); [eauto|]. destruct (match pf_max _ with Some _ => _ | None => _ end); [eauto|].
  destruct (match pf_min _ with Some _ => _ | None => _ end) eqn:E; [eauto|]. cbv zeta.
  rewrite drem_spec by apply (vc_ptick _ V). cbn [bind]. destruct (negb _); eauto.
  destruct (_ && _); eauto. destruct (_ && _); eauto.
Qed.

Lemma good_snoc b o : good_book b -> 0 < lo_rem o -> 0 < lo_price o -> good_book (b ++ [o]).
Proof. intros Hb H1 H2 x Hx. apply in_app_or in Hx as [Hx|[<-|[]]]; auto. Qed.

(** A new order never makes the wallet negative when the reserved margin is right. *)
Lemma append_safe c e o :
  valid_config c -> Sound c e -> 0 < lo_rem o -> 0 < lo_price o -> ~ In (lo_id o) (ids (ex_active e)) ->
  check_limit_order c (ex_pos e) o (bal (ex_acc e) WALLET) (ex_om e) = Done (Ok tt) ->
  safe (if Z.eqb (bal (ex_acc e) ORDER_MARGIN) (req c (ex_active e) (ex_pos e)) then [] else [PWalletNegative])
    (append_limit_order c e o).
Proof.
  intros V S Hr Hp Hid Hchk. pose proof (so_inv _ _ S) as I. pose proof (inv_good _ _ I) as Hg.
  pose proof (inv_books _ _ I) as HB. rewrite HB in Hchk.
  pose proof (good_snoc _ _ Hg Hr Hp) as Hg'.
  unfold check_limit_order in Hchk. rewrite with_order_eq, !om_eq in Hchk by (assumption || apply (inv_pos _ _ I)).
  cbn [bind] in Hchk.
  assert (Hw : req c (ex_active e ++ [o]) (ex_pos e) <= bal (ex_acc e) WALLET + req c (ex_active e) (ex_pos e)).
  { destruct (Z.ltb_spec (bal (ex_acc e) WALLET + req c (ex_active e) (ex_pos e)) (req c (ex_active e ++ [o]) (ex_pos e))); [discriminate | lia]. }
  unfold append_limit_order, om_update. rewrite HB.
  destruct (Z.ltb_spec 0 (lo_rem o)); [|lia]. cbn [assert bind].
  rewrite !book_insert_new by assumption.
  destruct (c_max c <=? Z.of_nat (length (ex_active e))) eqn:Ec; cbn [bind]; [apply safe_done|].
  cbn [set_om ex_active]. rewrite book_insert_new by assumption.
  destruct (Z.leb_spec active_capacity (Z.of_nat (length (ex_active e)))).
  { pose proof (vc_max _ V). unfold active_capacity in *. lia. }
  unfold computed_order_margin. cbn [set_active set_om ex_om ex_pos ex_acc ex_active].
  rewrite om_eq by (assumption || apply (inv_pos _ _ I)). cbn [bind]. fold (bal (ex_acc e) ORDER_MARGIN).
  assert (Htail : forall amt, 0 < amt ->
    (bal (ex_acc e) ORDER_MARGIN = req c (ex_active e) (ex_pos e) -> amt = req c (ex_active e ++ [o]) (ex_pos e) - bal (ex_acc e) ORDER_MARGIN) ->
    safe (if bal (ex_acc e) ORDER_MARGIN =? req c (ex_active e) (ex_pos e) then [] else [PWalletNegative])
    (acc <- transfer (c_dbg c) (ex_acc e) ORDER_MARGIN WALLET amt;;
     (let e3 := set_acc (set_active (set_om e (ex_active e ++ [o])) (ex_active e ++ [o])) acc in
      _ <- assert (orders_eqb (ex_om e3) (ex_active e3)) PAppendBooks;;
      _ <- assert match ex_active e3 with [] => margin_balance_of (ex_acc e3) ORDER_MARGIN =? 0 | _ :: _ => true end PAppendEmptyMargin;;
      _ <- assert_user_wallet_balance (ex_acc e3);; Done (e3, @Ok error unit tt)))).
  { intros amt Ha Hsync. rewrite transfer_ok; [|apply (so_sums _ _ S) | assumption | discriminate]. cbn [bind]. cbv zeta.
    cbn [set_acc set_active set_om ex_om ex_active ex_acc]. rewrite orders_eqb_refl. cbn [assert bind].
    assert (Hne : match ex_active e ++ [o] with [] => margin_balance_of (transfer_pure (ex_acc e) ORDER_MARGIN WALLET amt) ORDER_MARGIN =? 0 | _ :: _ => true end = true)
      by (destruct (ex_active e); reflexivity).
    rewrite Hne. cbn [assert bind]. apply safe_bind; [|intros; apply safe_done]. apply safe_assert. intros Hw'.
    destruct (Z.eqb_spec (bal (ex_acc e) ORDER_MARGIN) (req c (ex_active e) (ex_pos e))) as [E|E]; [|left; reflexivity].
    exfalso. specialize (Hsync E). fold (bal (transfer_pure (ex_acc e) ORDER_MARGIN WALLET amt) WALLET) in Hw'.
    rewrite bal_transfer in Hw' by discriminate. unfold delta in Hw'. cbn in Hw'. lia. }
  pose proof (req_snoc c (ex_active e) o (ex_pos e) (vc_scale _ V) (proj1 (vc_imr _ V)) Hg') as Hmono.
  destruct (Z.compare_spec (req c (ex_active e ++ [o]) (ex_pos e)) (bal (ex_acc e) ORDER_MARGIN)).
  - apply safe_done.
  - apply Htail; [lia | intros; lia].
  - apply Htail; [lia | intros; lia].
Qed.

Lemma submit_limit_safe c e o :
  valid_config c -> Sound c e -> nl_ok o ->
  safe (if Z.eqb (bal (ex_acc e) ORDER_MARGIN) (req c (ex_active e) (ex_pos e)) then [] else [PWalletNegative])
    (submit_limit_order c e o).
Proof.
  intros V S N. pose proof (so_inv _ _ S) as I. unfold submit_limit_order.
  destruct (validate_qty_done c (nl_rem o) V) as [v ->]. cbn [bind]. destruct v as [u|]; [|apply safe_done].
  cbn [set_trk ex_ms ex_next_id].
  destruct (validate_price_done c (nl_price o) (mid_price (ex_ms e)) V) as [v ->]. cbn [bind]. destruct v as [u'|]; [|apply safe_done].
  cbn [set_next_id set_trk ex_ms ex_pos ex_acc ex_om]. fold (bal (ex_acc e) WALLET).
  set (ord := limit_into_pending o (ex_next_id e) (ms_ts (ex_ms e))).
  assert (Hr : 0 < lo_rem ord) by apply N. assert (Hp : 0 < lo_price ord) by apply N.
  apply safe_bind.
  { unfold check_limit_order. rewrite with_order_eq, (inv_books _ _ I). pose proof (inv_good _ _ I) as Hg.
    rewrite !om_eq by (assumption || apply (inv_pos _ _ I) || (apply good_snoc; assumption)). apply safe_done. }
  intros r Hchk. destruct r as [[]|]; [|apply safe_done].
  destruct (marketable _ _); [apply safe_done|].
  apply safe_bind.
  - set (t := log_limit_order_submission (ex_trk e)).
    pose proof (append_safe c (trk_next e t (ex_next_id e + 1)) ord V (trk_next_sound _ _ _ S) Hr Hp) as H.
    apply H; [cbn; apply (inv_fresh _ _ I) | exact Hchk].
  - intros [e3 a] _. destruct a; apply safe_done.
Qed.

Lemma cancel_safe_gen c e by_ L :
  valid_config c -> Sound c e ->
  (bal (ex_acc e) ORDER_MARGIN <> req c (ex_active e) (ex_pos e) -> In PCancelMargin L) ->
  (forall o act', remove_with (ex_active e) by_ = Some (o, act') -> bal (ex_acc e) ORDER_MARGIN < req c act' (ex_pos e) -> In PCancelMarginGrows L) ->
  safe L (cancel_limit_order c e by_).
Proof.
  intros V S HL1 HL2. pose proof (so_inv _ _ S) as I. pose proof (inv_good _ _ I) as Hg. pose proof (inv_books _ _ I) as HB.
  unfold cancel_limit_order, computed_order_margin at 1. rewrite HB at 1.
  rewrite om_eq at 1 by (assumption || apply (inv_pos _ _ I)). cbn [bind]. fold (bal (ex_acc e) ORDER_MARGIN).
  apply safe_bind; [apply safe_assert; intros; apply HL1; lia|]. intros _ _.
  assert (Hmain : forall o act', remove_with (ex_active e) by_ = Some (o, act') ->
    safe L
     (om' <- om_remove (ex_om (set_active e act')) by_ ;;
      new_om <- computed_order_margin c (set_om (set_active e act') om') ;;
      _ <- assert (new_om <=? bal (ex_acc e) ORDER_MARGIN) PCancelMarginGrows ;;
      e3 <- (if new_om <? bal (ex_acc e) ORDER_MARGIN then
               acc <- transfer (c_dbg c) (ex_acc (set_om (set_active e act') om')) WALLET ORDER_MARGIN (bal (ex_acc e) ORDER_MARGIN - new_om) ;;
               Done (set_acc (set_om (set_active e act') om') acc)
             else Done (set_om (set_active e act') om')) ;;
      let e4 := set_trk e3 (log_limit_order_cancellation (ex_trk e3)) in
      _ <- assert (orders_eqb (ex_om e4) (ex_active e4)) PCancelBooks ;;
      _ <- assert (match ex_active e4 with
                   | [] => margin_balance_of (ex_acc e4) ORDER_MARGIN =? 0
                   | _ => true end) PCancelEmptyMargin ;;
      Done (e4, @Ok error _ o))).
  { intros o act' Hr. cbn [set_active ex_om]. rewrite HB.
    assert (Hom : om_remove (ex_active e) by_ = Done act').
    { unfold om_remove. unfold remove_with in Hr. destruct by_; rewrite Hr; reflexivity. }
    rewrite Hom. cbn [bind]. pose proof (remove_with_spec _ _ _ _ Hr) as (_ & _ & Hperm).
    pose proof (good_cons_perm _ _ _ Hperm Hg) as Hg'.
    unfold computed_order_margin. cbn [set_om set_active ex_om ex_pos ex_acc].
    rewrite om_eq by (assumption || apply (inv_pos _ _ I)). cbn [bind]. fold (bal (ex_acc e) ORDER_MARGIN).
    apply safe_bind; [apply safe_assert; intros; eapply HL2; [exact Hr | lia]|]. intros ? Hle. apply assert_done in Hle.
    set (n := req c act' (ex_pos e)) in *.
    assert (He3 : exists acc, (if n <? bal (ex_acc e) ORDER_MARGIN then
               acc <- transfer (c_dbg c) (ex_acc e) WALLET ORDER_MARGIN (bal (ex_acc e) ORDER_MARGIN - n) ;;
               Done (set_acc (set_om (set_active e act') act') acc)
             else Done (set_om (set_active e act') act')) = Done (set_acc (set_om (set_active e act') act') acc) /\
             bal acc ORDER_MARGIN = n).
    { destruct (Z.ltb_spec n (bal (ex_acc e) ORDER_MARGIN)).
      - rewrite transfer_ok; [|apply (so_sums _ _ S) | lia | discriminate]. cbn [bind]. eexists. split; [reflexivity|].
        rewrite bal_transfer by discriminate. unfold delta; cbn. lia.
      - exists (ex_acc e). split; [destruct e; reflexivity | lia]. }
    destruct He3 as (acc & He3 & Hbal). rewrite He3. cbn [bind]. cbv zeta.
    cbn [set_trk set_acc set_om set_active ex_om ex_active ex_acc]. rewrite orders_eqb_refl. cbn [assert bind].
    apply safe_bind; [|intros; apply safe_done]. apply safe_assert. destruct act' as [|x l]; [|discriminate].
    intros E. fold (bal acc ORDER_MARGIN) in E. rewrite Hbal in E. unfold n in E. rewrite req_nil in E. discriminate. }
  destruct by_ as [id|uid]; cbn [remove_with] in Hmain.
  - destruct (remove_by_order_id (ex_active e) id) as [[o act']|]; [exact (Hmain o act' eq_refl) | apply safe_done].
  - destruct (remove_by_user_order_id (ex_active e) uid) as [[o act']|]; [exact (Hmain o act' eq_refl) | apply safe_done].
Qed.

Lemma cancel_safe c e by_ :
  valid_config c -> Sound c e -> safe [PCancelMargin; PCancelMarginGrows] (cancel_limit_order c e by_).
Proof. intros V S. apply cancel_safe_gen; try assumption; intros; site. Qed.

Lemma amend_safe_gen c e id o L :
  valid_config c -> Sound c e -> nl_ok o -> safe L (cancel_limit_order c e (ByOrderId id)) ->
  safe L (amend_limit_order c e id o).
Proof.
  intros V S N HL. unfold amend_limit_order. destruct (get_by_id (ex_active e) id) as [x|] eqn:Eg; [|apply safe_done].
  pose proof (get_by_id_in _ _ _ Eg) as [Hin Hid].
  pose proof (inv_ok _ _ (so_inv _ _ S) x Hin) as (Hrem & _ & Hfill).
  apply safe_bind.
  { unfold lo_total_quantity. apply safe_bind; [|intros; apply safe_done]. apply safe_assert.
    intros E. destruct (lo_filled x); lia. }
  intros total _. destruct (Z.leb_spec (lo_rem x + (nl_rem o - total)) 0).
  - apply safe_bind; [exact HL|]. intros [e1 r] Hc. destruct r; [apply safe_done|].
    exfalso. apply cancel_spec in Hc as (_ & _ & Hr & _). cbn in Hr. apply remove_id_none in Hr. apply Hr.
    rewrite <- Hid. apply in_map; assumption.
  - unfold set_remaining_quantity. destruct (Z.ltb_spec 0 (lo_rem x + (nl_rem o - total))); [|lia]. cbn [assert bind].
    apply safe_bind; [exact HL|]. intros [e1 r] Hc. destruct r; [|apply safe_done].
    apply cancel_spec in Hc as [_ Hc].
    pose proof (cancel_effect_sound _ _ _ _ _ V S Hc) as S1. destruct (cancel_effect_bal _ _ _ _ _ V S Hc) as [Hb _].
    eapply safe_weaken; [apply submit_limit_safe; [assumption | assumption | split; [apply N | cbn; lia]]|].
    rewrite Hb, Z.eqb_refl. intros w [].
Qed.

Lemma amend_safe c e id o :
  valid_config c -> Sound c e -> nl_ok o -> safe [PCancelMargin; PCancelMarginGrows] (amend_limit_order c e id o).
Proof. intros V S N. apply amend_safe_gen; try assumption. apply cancel_safe; assumption. Qed.

(** ** Market orders *)
Lemma settle_safe c e o :
  debit_sum (ex_acc e) = credit_sum (ex_acc e) -> pos_ok (ex_pos e) ->
  (c_dbg c = true -> ex_pos e = Neutral -> bal (ex_acc e) POSITION_MARGIN = 0) ->
  0 < fm_qty o -> safe (PSettlePrice :: position_sites) (settle_filled_market_order c e o).
Proof.
  intros Hs Hok Hf Hq. unfold settle_filled_market_order.
  apply safe_bind; [apply safe_assert; intros; lia|]. intros _ _.
  apply safe_bind; [apply safe_assert; intros; site|]. intros ? Hp. apply assert_done in Hp.
  apply safe_bind; [apply safe_convert; intros; site|]. intros v _.
  apply safe_bind.
  { eapply safe_weaken; [apply safe_change_position; (assumption || lia)|]. intros w Hw; right; exact Hw. }
  intros [pos acc] _. apply safe_bind; [apply safe_log_trade; lia|]. intros. apply safe_done.
Qed.

Lemma submit_market_safe c e o :
  valid_config c -> Sound c e -> 0 < nm_qty o -> safe (PSettlePrice :: position_sites) (submit_market_order c e o).
Proof.
  intros V S Hq. unfold submit_market_order.
  destruct (validate_qty_done c (nm_qty o) V) as [v ->]. cbn [bind]. destruct v as [u|]; [|apply safe_done].
  apply safe_bind.
  { unfold check_market_order, check_market_reduce, check_market_open. cbn [set_next_id set_trk ex_pos].
    destruct (nm_side o), (ex_pos e);
    repeat match goal with
    | |- safe _ (if ?b then _ else _) => destruct b
    | |- safe _ (Done _) => apply safe_done
    | |- safe _ (bind (convert_from _ _ _ _) _) => apply safe_bind; [apply safe_convert; intros; site|]; intros
    end. }
  intros r _. destruct r; [|apply safe_done].
  apply safe_bind; [|intros; apply safe_done].
  apply settle_safe; cbn; try assumption; [apply (so_sums _ _ S) | apply (inv_pos _ _ (so_inv _ _ S)) | apply (so_flat _ _ S)].
Qed.

Lemma liquidate_safe c e :
  valid_config c -> Sound c e -> ex_pos e <> Neutral ->
  safe (PLiquidateSubmit :: PSettlePrice :: position_sites) (liquidate c e).
Proof.
  intros V S Hn. pose proof (inv_pos _ _ (so_inv _ _ S)) as Hok. unfold liquidate.
  assert (Ho : exists o, 0 < nm_qty o /\ match ex_pos e with
           | Long i => match market_new Sell (pi_qty i) 0 with
                       | Ok o => Done o | Err _ => Panic PLiquidateOrder end
           | Short i => match market_new Buy (pi_qty i) 0 with
                        | Ok o => Done o | Err _ => Panic PLiquidateOrder end
           | Neutral => Panic PLiquidateNeutral
           end = Done o).
  { destruct (ex_pos e) as [|i|i]; [contradiction| |]; cbn in Hok; unfold market_new;
    destruct (Z.leb_spec (pi_qty i) 0); try lia; eexists; (split; [|reflexivity]); cbn; assumption. }
  destruct Ho as (o & Hq & ->). cbn [bind].
  apply safe_bind.
  { eapply safe_weaken; [apply submit_market_safe; assumption|]. intros w Hw; right; exact Hw. }
  intros [e1 r] _. destruct r; [apply safe_done|]. intros w E. injection E as <-. left; reflexivity.
Qed.

(** ** Fills *)
Definition volumes_pos (sc : smart_candle) : Prop :=
  forall v, In v (sc_buys sc) \/ In v (sc_sells sc) -> 0 < snd v.
Definition update_good (dbg : bool) (u : market_update) : Prop :=
  match u with USmart sc => dbg = true -> volumes_pos sc | _ => True end.

Lemma aggregate_loop_pos l : forall last sum, 0 < sum -> (forall v, In v l -> 0 < snd v) ->
  forall v, In v (aggregate_loop last sum l) -> 0 < snd v.
Proof.
  induction l as [|[p q] l IH]; intros last sum Hs Hl v Hv; cbn [aggregate_loop] in Hv.
  - destruct Hv as [<-|[]]. exact Hs.
  - assert (Hq : 0 < q) by (apply (Hl (p, q)); left; reflexivity).
    assert (Hl' : forall w, In w l -> 0 < snd w) by (intros w Hw; apply Hl; right; exact Hw).
    destruct (p =? last).
    + eapply IH; [| |exact Hv]; [lia | exact Hl'].
    + destruct Hv as [<-|Hv]; [exact Hs|]. eapply IH; [| |exact Hv]; [lia | exact Hl'].
Qed.
Lemma aggregate_pos l : (forall v, In v l -> 0 < snd v) -> forall v, In v (aggregate l) -> 0 < snd v.
Proof.
  destruct l as [|[p q] l]; intros Hl v Hv; [contradiction|]. unfold aggregate in Hv. cbn [aggregate_loop] in Hv.
  rewrite Z.eqb_refl in Hv. eapply aggregate_loop_pos; [| |exact Hv].
  - specialize (Hl (p, q) (or_introl eq_refl)). cbn in Hl. lia.
  - intros w Hw; apply Hl; right; exact Hw.
Qed.

Lemma smart_new_good dbg ts b f sc : smart_candle_new dbg ts b f = Done sc -> dbg = true -> volumes_pos sc.
Proof.
  unfold smart_candle_new. destruct ts as [|t0 l]; [discriminate|]. set (ts := t0 :: l). intros H ->.
  apply bind_done in H as [? [_ H]]. apply bind_done in H as [v [_ H]]. apply bind_done in H as [? [_ H]].
  apply bind_done in H as [? [Hq H]]. apply debug_assert_done in Hq; [|reflexivity]. rewrite forallb_forall in Hq.
  injection H as <-.
  assert (Ht : forall sd v, In v (trades_of sd ts) -> 0 < snd v).
  { intros sd w Hw. unfold trades_of in Hw. apply in_map_iff in Hw as (t & <- & Ht). apply filter_In in Ht as [Ht _].
    specialize (Hq t Ht). cbn in *. lia. }
  intros w [Hw|Hw]; cbn [sc_buys sc_sells] in Hw; (eapply aggregate_pos; [|exact Hw]);
  intros y Hy; apply (Permutation_in _ (sort_perm _ _)) in Hy; eapply Ht; exact Hy.
Qed.

Lemma build_good dbg r u : build_update dbg r = Done u -> update_good dbg u.
Proof.
  destruct r; cbn; intros H; inv; cbn; auto. eapply smart_new_good; eassumption.
Qed.

Lemma filled_bounds c u o q :
  update_good (c_dbg c) u -> 0 < lo_rem o -> limit_order_filled (c_dbg c) u o = Done (Some q) ->
  q <= lo_rem o /\ (c_dbg c = true -> 0 < q).
Proof.
  intros Hu Hr H. destruct u as [b|t|k|sc]; cbn [limit_order_filled] in H; [discriminate | | |].
  - unfold trade_fills in H. inv. match goal with H : (if ?b then _ else _) = _ |- _ => destruct b end; inv.
    rewrite umin_min. split; [lia|]. intros E. match goal with H : c_dbg c = true -> (0 <? tr_qty t) = true |- _ => specialize (H E) end. lia.
  - unfold candle_fills in H. inv. match goal with H : (if ?b then _ else _) = _ |- _ => destruct b end; inv. lia.
  - injection H as H. unfold smart_fills in H. cbn [update_good] in Hu.
    destruct (lo_side o).
    + destruct (lo_price o <=? sc_low sc); [discriminate|].
      destruct (find _ _) as [v|] eqn:E; [|discriminate]. cbn in H. injection H as <-. rewrite umin_min. split; [lia|].
      intros Ed. apply find_some in E as [E _]. apply in_rev in E. specialize (Hu Ed v (or_intror E)). lia.
    + destruct (sc_high sc <=? lo_price o); [discriminate|].
      destruct (find _ _) as [v|] eqn:E; [|discriminate]. cbn in H. injection H as <-. rewrite umin_min. split; [lia|].
      intros Ed. apply find_some in E as [E _]. apply in_rev in E. specialize (Hu Ed v (or_introl E)). lia.
Qed.

Lemma filled_safe c u o :
  can_fill u = true -> 0 < lo_rem o -> safe [PTradeQtyDebug] (limit_order_filled (c_dbg c) u o).
Proof.
  intros Hc Hr. destruct u; cbn in *; [discriminate | | |apply safe_done].
  - unfold trade_fills. apply safe_bind; [apply safe_dassert; intros; site|]. intros _ _.
    apply safe_bind; [apply safe_dassert; intros; lia|]. intros; apply safe_done.
  - unfold candle_fills. apply safe_bind; [apply safe_dassert; intros; lia|]. intros; apply safe_done.
Qed.

(** The tracked book before and after a fill of [q]. *)
Definition book_after (c : config) (b : list limit_order) (o : limit_order) (q : Z) (b' : list limit_order) : Prop :=
  if q =? lo_rem o then om_remove b (ByOrderId (lo_id o)) = Done b'
  else om_update (c_max c) b (after_fill (c_scale c) o q) = Done (b', Ok tt).

Lemma fill_one_safe_gen c u e l o L :
  valid_config c -> can_fill u = true -> update_good (c_dbg c) u -> Mid c e -> In o (ex_om e) -> order_ok o ->
  incl (PTradeQtyDebug :: PFillNonPos :: position_sites) L ->
  (bal (ex_acc e) ORDER_MARGIN <> req c (ex_om e) (ex_pos e) -> In PFillMarginDebug L) ->
  (forall q b' pos', fillq c u o = Some q -> 0 < q <= lo_rem o -> book_after c (ex_om e) o q b' -> good_book b' ->
     position_quantity pos' = position_quantity (ex_pos e) + signed (lo_side o) q ->
     bal (ex_acc e) ORDER_MARGIN < req c b' pos' -> In PFillMarginGrowsDebug L) ->
  safe L (fill_one c u e l o).
Proof.
  intros V Hc Hu M Ho Hok Hi HL1 HL2. pose proof Hok as (Hrem & Hprice & Hfill). unfold fill_one.
  apply safe_bind; [eapply safe_weaken; [apply filled_safe; assumption | intros w [<-|[]]; apply Hi; site]|]. intros f Hf. destruct f as [q|]; [|apply safe_done].
  destruct (filled_bounds _ _ _ _ Hu Hrem Hf) as [Hq1 Hq2].
  apply safe_bind; [apply safe_dassert; intros E; specialize (Hq2 E); lia|]. intros _ _.
  assert (Hom : computed_order_margin c e = Done (req c (ex_om e) (ex_pos e))).
  { apply om_eq; [assumption | apply (mi_good _ _ M) | apply (mi_pos _ _ M)]. }
  apply safe_bind.
  { apply safe_dassert_m; [intros; rewrite Hom; cbn; apply safe_done|]. intros _ E. rewrite Hom in E. cbn in E. injection E as E.
    apply HL1. unfold bal. lia. }
  intros _ _.
  apply safe_bind.
  { unfold order_fill. apply safe_bind; [apply safe_assert; intros; lia|]. intros _ _.
    apply safe_bind; [apply safe_assert; intros; apply Hi; site|]. intros ? Hq. apply assert_done in Hq.
    destruct (lo_filled o) as [|cum avg]; [destruct (q =? lo_rem o); apply safe_done|].
    apply safe_bind; [eapply safe_eq, new_weighted_price_ok; lia|]. intros. destruct (_ =? 0); apply safe_done. }
  intros [o' filled] Hof. apply order_fill_spec in Hof as (Hq & -> & ->).
  pose proof (get_by_id_nodup _ _ (mi_nodup _ _ M) Ho) as Hget.
  assert (Hbook : exists e1 l1 om1,
    book_after c (ex_om e) o q om1 /\
    ex_om e1 = om1 /\ ex_pos e1 = ex_pos e /\ ex_acc e1 = ex_acc e /\
    match (if q =? lo_rem o then Some (done_fill o q (update_ts u)) else None) with
    | Some fo =>
        let t1 := log_limit_order_fill (ex_trk e) true in
        om' <- om_remove (ex_om e) (ByOrderId (lo_id (after_fill (c_scale c) o q))) ;;
        Done (set_updates (set_om (set_trk e t1) om') (ex_updates e ++ [FullyFilled fo]),
              l ++ [lo_id (after_fill (c_scale c) o q)])
    | None =>
        _ <- debug_assert (c_dbg c) (0 <? lo_rem (after_fill (c_scale c) o q)) PFillRemDebug ;;
        let t1 := log_limit_order_fill (ex_trk e) false in
        '(om', r) <- om_update (c_max c) (ex_om e) (after_fill (c_scale c) o q) ;;
        match r with
        | Err _ => Panic PFillUpdate
        | Ok _ => Done (set_updates (set_om (set_trk e t1) om')
                          (ex_updates e ++ [PartiallyFilled (after_fill (c_scale c) o q)]), l)
        end
    end = Done (e1, l1)).
  { unfold book_after. destruct (Z.eqb_spec q (lo_rem o)).
    - unfold om_remove. change (lo_id (after_fill (c_scale c) o q)) with (lo_id o).
      destruct (remove_by_order_id (ex_om e) (lo_id o)) as [[x b']|] eqn:Er.
      + eexists _, _, _. split; [reflexivity|]. cbn [bind]. split; [|split; [|split; [|reflexivity]]]; reflexivity.
      + exfalso. apply remove_id_none in Er. apply Er. apply in_map; assumption.
    - assert (Hup : om_update (c_max c) (ex_om e) (after_fill (c_scale c) o q) = Done (replace_by_id (ex_om e) (lo_id o) (after_fill (c_scale c) o q), Ok tt)).
      { unfold om_update, book_insert. change (lo_id (after_fill (c_scale c) o q)) with (lo_id o). rewrite Hget.
        cbn [after_fill lo_rem]. destruct (Z.ltb_spec 0 (lo_rem o - q)); [|lia]. cbn [assert bind].
        destruct (limit_order_eq_dec o _) as [E|_]; [apply (f_equal lo_rem) in E; cbn in E; lia|]. cbn [assert bind].
        destruct (Z.ltb_spec (lo_rem o - q) (lo_rem o)); [reflexivity | lia]. }
      rewrite Hup. eexists _, _, _. split; [reflexivity|]. cbn [after_fill lo_rem].
      destruct (Z.ltb_spec 0 (lo_rem o - q)); [|lia]. rewrite debug_assert_true. cbn [bind].
      split; [|split; [|split; [|reflexivity]]]; reflexivity. }
  destruct Hbook as (e1 & l1 & om1 & Hom1 & E1 & E2 & E3 & Hb).
  match goal with |- safe _ (bind ?m _) => change (m = Done (e1, l1)) in Hb; rewrite Hb; clear Hb end. cbn [bind].
  assert (Hg1 : good_book om1).
  { unfold book_after in Hom1. destruct (q =? lo_rem o).
    - eapply good_remove; [apply (mi_good _ _ M) | exact Hom1].
    - eapply good_update; [apply (mi_good _ _ M) | | exact Hom1]. exact Hprice. }
  cbn [after_fill lo_price lo_side].
  apply safe_bind; [apply safe_convert; intros; apply Hi; site|]. intros v _.
  apply safe_bind.
  { rewrite E2, E3. eapply safe_weaken.
    - apply safe_change_position; [apply (mi_sums _ _ M) | lia | assumption | apply (mi_pos _ _ M) | apply (mi_flat _ _ M)].
    - intros w Hw. apply Hi. right; right. exact Hw. }
  intros [pos acc] Hcp. rewrite E2, E3 in Hcp. apply change_position_cases in Hcp.
  apply safe_bind; [apply safe_log_trade; lia|]. intros t2 _.
  unfold computed_order_margin. cbn [set_trk set_acc set_pos ex_om ex_pos]. rewrite E1.
  rewrite om_eq; [|assumption | assumption | eapply cp_pos_ok; [exact Hcp | apply (mi_pos _ _ M)]]. cbn [bind].
  apply safe_bind.
  { apply safe_dassert. intros _ E. apply (HL2 q om1 pos); [|exact Hq | exact Hom1 | exact Hg1 | |].
    - unfold fillq. rewrite Hf. reflexivity.
    - eapply cp_qty; exact Hcp.
    - unfold bal. lia. }
  intros _ _.
  apply safe_bind; [|intros; apply safe_done].
  match goal with |- safe _ (if ?b then _ else _) => destruct b eqn:Eb end; [|apply safe_done].
  apply safe_bind; [|intros; apply safe_done]. cbn [set_trk set_acc set_pos ex_acc].
  apply safe_transfer; [|discriminate | intros; apply Hi; site].
  eapply tpath_sums; [eapply cp_tpath; exact Hcp | apply (mi_sums _ _ M)].
Qed.

Lemma fill_one_safe c u e l o :
  valid_config c -> can_fill u = true -> update_good (c_dbg c) u -> Mid c e -> In o (ex_om e) -> order_ok o ->
  safe fill_sites (fill_one c u e l o).
Proof.
  intros. apply fill_one_safe_gen; try assumption; try (intros; site). intros w Hw. cbn in Hw |- *. tauto.
Qed.

Lemma fill_one_next c u e l o e' l' o' :
  valid_config c -> Mid c e -> In o (ex_om e) -> fill_one c u e l o = Done (e', l', o') ->
  Mid c e' /\ (forall x, lo_id x <> lo_id o -> In x (ex_om e) -> In x (ex_om e')).
Proof.
  intros V M Ho H. apply fill_one_spec in H as (f & _ & Hf). destruct f as [q|].
  - destruct Hf as (He & _). split; [eapply fe_mid; eassumption|].
    apply (fe_nodup _ _ _ _ _ _ (mi_nodup _ _ M) Ho He).
  - destruct Hf as (-> & _). auto.
Qed.

Lemma fill_loop_safe c u todo :
  valid_config c -> can_fill u = true -> update_good (c_dbg c) u -> forall e l,
  Mid c e -> NoDup (ids todo) -> incl todo (ex_om e) -> (forall o, In o todo -> order_ok o) ->
  safe fill_sites (fill_loop c u e l todo).
Proof.
  intros V Hc Hu. induction todo as [|o t IH]; intros e l M Hn Hi Hok; cbn [fill_loop]; [apply safe_done|].
  assert (Ho : In o (ex_om e)) by (apply Hi; left; reflexivity).
  apply safe_bind; [apply fill_one_safe; auto; apply Hok; left; reflexivity|].
  intros [[e1 l1] o1] H1. destruct (fill_one_next _ _ _ _ _ _ _ _ V M Ho H1) as [M1 Hk].
  inversion Hn as [|? ? Hni Hn']; subst.
  apply safe_bind; [|intros [[e2 l2] t2] _; apply safe_done].
  apply IH; [assumption | assumption | | intros x Hx; apply Hok; right; exact Hx].
  intros x Hx. apply Hk; [|apply Hi; right; exact Hx]. intros E. apply Hni. rewrite <- E. apply in_map; exact Hx.
Qed.

Lemma check_active_safe c e u :
  valid_config c -> Sound c e -> update_good (c_dbg c) u -> safe check_sites (check_active_orders c e u).
Proof.
  intros V S Hu. pose proof (so_inv _ _ S) as I. unfold check_active_orders.
  destruct (can_fill u) eqn:Hc; cbn [negb]; [|apply safe_done].
  cbn [set_updates ex_om ex_active]. rewrite (inv_books _ _ I).
  apply safe_bind; [apply safe_dassert; rewrite orders_eqb_refl; discriminate|]. intros _ _.
  assert (M0 : Mid c (set_updates e [])).
  { pose proof (sound_mid _ _ S) as M. destruct M. constructor; cbn; auto. }
  apply safe_bind.
  { eapply safe_weaken; [apply fill_loop_safe; try assumption|].
    - apply (inv_nodup _ _ I).
    - cbn. rewrite (inv_books _ _ I). intros x Hx; exact Hx.
    - apply (inv_ok _ _ I).
    - intros w Hw. right. right. exact Hw. }
  intros [[e1 ids'] arena] Hl. apply fill_loop_spec in Hl as (Hf & Hfills & -> & ->). cbn [app].
  pose proof (fills_book _ _ _ _ _ [] [] Hfills) as Hb. cbn [app] in Hb.
  specialize (Hb (inv_nodup _ _ I) (fun i Hi => match Hi with end)).
  cbn [set_updates ex_om remove_executed] in Hb. rewrite (inv_books _ _ I) in Hb. specialize (Hb eq_refl). rewrite Hb. cbn [bind].
  assert (M1 : Mid c e1).
  { eapply fills_mid; [assumption | exact Hfills | assumption|]. cbn. apply (inv_todo c e I). }
  cbn [set_active ex_om ex_active ex_acc].
  apply safe_bind; [apply safe_dassert; rewrite orders_eqb_refl; discriminate|]. intros _ _.
  apply safe_bind.
  { apply safe_dassert. intros _ E. exfalso. pose proof (mi_empty _ _ M1) as He. destruct (ex_om e1); [|discriminate].
    specialize (He eq_refl). unfold bal in He. lia. }
  intros _ _. apply safe_bind.
  { apply safe_dassert_m; [|intros; site]. intros _. unfold computed_order_margin. cbn [set_active ex_om ex_pos].
    rewrite om_eq; [|assumption | apply (mi_good _ _ M1) | apply (mi_pos _ _ M1)]. apply safe_done. }
  intros _ _. apply safe_bind; [|intros; apply safe_done]. apply safe_assert. intros; site.
Qed.

Lemma maintenance_neutral c b a p err : check_maintenance_margin c b a p = Err err -> p <> Neutral.
Proof. destruct p; cbn; intros; [discriminate | discriminate | discriminate]. Qed.

Lemma update_state_safe c e u :
  valid_config c -> Sound c e -> update_good (c_dbg c) u ->
  safe (PSettlePrice :: PLiquidateSubmit :: data_sites ++ check_sites) (update_state c e u).
Proof.
  intros V S Hu. unfold update_state. apply safe_bind.
  { unfold market_update_state. apply safe_bind; [|intros; apply safe_done].
    destruct (data_total (ct_pf (c_spec c)) u (vc_ptick _ V)) as [v ->]. cbn [bind].
    apply safe_dassert_m; [intros; apply safe_done | intros; site]. }
  intros ms Hm. unfold market_update_state in Hm. apply bind_done in Hm as [? [_ Hm]]. injection Hm as <-.
  pose proof (pre_check_sound c e u S) as S0.
  assert (H2 : safe (PSettlePrice :: PLiquidateSubmit :: data_sites ++ check_sites)
              match check_maintenance_margin c (ms_bid (ex_ms (pre_check c e u)))
                       (ms_ask (ex_ms (pre_check c e u))) (ex_pos (pre_check c e u)) with
               | Err err => e5 <- liquidate c (pre_check c e u) ;; Done (e5, Err (ERisk err))
               | Ok _ => e5 <- check_active_orders c (pre_check c e u) u ;; Done (e5, Ok (ex_updates e5))
               end).
  { destruct (check_maintenance_margin _ _ _ _) eqn:Em.
    - apply safe_bind; [|intros; apply safe_done]. eapply safe_weaken; [apply check_active_safe; assumption|].
      intros w Hw. right; right. apply in_or_app; right; exact Hw.
    - apply safe_bind; [|intros; apply safe_done]. eapply safe_weaken.
      + apply liquidate_safe; [assumption | assumption | eapply maintenance_neutral; exact Em].
      + intros w Hw. cbn in Hw |- *. tauto. }
  unfold pre_check in H2. cbn [set_ms set_trk ex_trig ex_ms ex_trk] in *.
  destruct (should_trigger (ex_trig e) (update_ts u)) as [trig fire]. exact H2.
Qed.

Lemma validate_bba_safe f b : safe data_sites (validate_bba f b).
Proof.
  unfold validate_bba, and_then, enforce_step_size, drem. cbn [bind].
  repeat match goal with
  | |- safe _ (match ?x with Ok _ => _ | Err _ => _ end) => destruct x
  | |- safe _ (Done _) => apply safe_done
  | |- safe _ (Panic _) => let w := fresh in let E := fresh in intros w E; injection E as <-; site
  | |- safe _ (bind (bind (if ?b then _ else _) _) _) => destruct b; cbn [bind]
  | |- safe _ (match (if ?b then _ else _) with Ok _ => _ | Err _ => _ end) => destruct b
  end.
Qed.
Lemma validate_trade_safe f b : safe data_sites (validate_trade f b).
Proof.
  unfold validate_trade, and_then, enforce_step_size, drem. cbn [bind].
  repeat match goal with
  | |- safe _ (match ?x with Ok _ => _ | Err _ => _ end) => destruct x
  | |- safe _ (Done _) => apply safe_done
  | |- safe _ (Panic _) => let w := fresh in let E := fresh in intros w E; injection E as <-; site
  | |- safe _ (bind (if ?b then _ else _) _) => destruct b; cbn [bind]
  end.
Qed.
Lemma any_valid_safe f l : safe data_sites (any_valid f l).
Proof.
  induction l as [|t l IH]; cbn [any_valid]; [apply safe_done|].
  apply safe_bind; [apply validate_trade_safe|]. intros v _. destruct (is_ok v); [apply safe_done | exact IH].
Qed.

Lemma build_safe dbg r : safe data_sites (build_update dbg r).
Proof.
  destruct r; cbn [build_update]; try apply safe_done. apply safe_bind; [|intros; apply safe_done].
  unfold smart_candle_new. destruct trades as [|t0 l]; [intros w E; injection E as <-; site|].
  apply safe_bind; [apply safe_dassert_m; [intros; apply any_valid_safe | intros; site]|]. intros _ _.
  apply safe_bind; [apply validate_bba_safe|]. intros v _.
  apply safe_bind; [apply safe_assert; intros; site|]. intros _ _.
  apply safe_bind; [apply safe_dassert; intros; site|]. intros. apply safe_done.
Qed.

Lemma map_out_safe {S E A B} L (f : A -> B) (m : outcome (S * result E A)) : safe L m -> safe L (map_out f m).
Proof. intros H. unfold map_out. apply safe_bind; [exact H|]. intros [s r] _. apply safe_done. Qed.

Lemma step_safe c e o : valid_config c -> Sound c e -> safe (sites o) (step c e o).
Proof.
  intros V S. destruct o; cbn [step sites].
  - apply safe_bind.
    { eapply safe_weaken; [apply build_safe|]. intros w Hw. right; right. apply in_or_app; left; exact Hw. }
    intros u Hu. apply map_out_safe, update_state_safe; [assumption | assumption | eapply build_good; exact Hu].
  - unfold market_new. destruct (Z.leb_spec qty 0); [apply safe_done|].
    apply map_out_safe, submit_market_safe; [assumption | assumption | cbn; assumption].
  - destruct (limit_new sd price qty uid) as [l|] eqn:E; [|apply safe_done]. apply limit_new_ok in E as [N _].
    apply map_out_safe. eapply safe_weaken; [apply submit_limit_safe; assumption|].
    destruct (_ =? _); intros w Hw; [destruct Hw | exact Hw].
  - apply map_out_safe, cancel_safe; assumption.
  - destruct (limit_new sd price qty uid) as [l|] eqn:E; [|apply safe_done]. apply limit_new_ok in E as [N _].
    apply map_out_safe, amend_safe; assumption.
  - apply safe_bind.
    { eapply safe_weaken; [apply build_safe|]. intros w Hw. apply in_or_app; left; exact Hw. }
    intros u Hu. apply safe_bind; [|intros; apply safe_done].
    eapply safe_weaken; [apply check_active_safe; [assumption | assumption | eapply build_good; exact Hu]|].
    intros w Hw. apply in_or_app; right; exact Hw.
Qed.

Lemma reachable_step_safe c e o w :
  valid_config c -> reachable c e -> step c e o = Panic w -> In w (sites o).
Proof. intros V R H. exact (step_safe c e o V (reachable_sound c e V R) w H). Qed.
