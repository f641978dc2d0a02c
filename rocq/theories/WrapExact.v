(** The exchange with unbounded totals overflows or behaves as the unbounded exchange. *)
From Verif Require Import Base Types Filters Accounting Currency Position OrderBook OrderMargin
  Risk MarketUpdate Tracker Exchange Width Fixed FixedProof Wrapped.

(** The ledger of the unbounded model. *)
Definition exact_ledger (dbg : bool) : ledger :=
  {| l_new := fun z => Fine (accounting_new dbg z); l_transfer := fun a d c amt => Fine (transfer dbg a d c amt);
     l_balance := fun a id => ret (margin_balance_of a id) |}.

#[local] Hint Resolve r_ret r_fine r_chk r_count r_cadd r_csub r_cneg r_cabs r_cmul r_cdiv r_crem r_convert r_pnl
  r_weighted r_limit_price r_step_size r_quantity r_total r_order_fill r_om r_om_with r_market r_limit r_mm r_mid
  r_validate r_market_update r_build r_tracker_add r_log_submission r_log_cancellation r_log_fill r_log_mfill r_log_msub
  r_log_trade r_tracker_update r_trigger r_balances_sum r_computed r_map_out : refs.

Lemma x_balance dbg acc id : refines (l_balance (exact_ledger dbg) acc id) (Done (margin_balance_of acc id)).
Proof. apply r_ret. Qed.
Lemma x_transfer dbg acc d c amt : refines (l_transfer (exact_ledger dbg) acc d c amt) (transfer dbg acc d c amt).
Proof. apply r_fine. Qed.
Lemma x_new dbg z : refines (l_new (exact_ledger dbg) z) (accounting_new dbg z).
Proof. apply r_fine. Qed.
#[local] Hint Resolve x_balance x_transfer x_new : refs.

(** ** Position *)
Lemma x_inner_new w c acc q p f : refines (g_inner_new (exact_ledger (c_dbg c)) w c acc q p f) (inner_new c acc q p f).
Proof. unfold g_inner_new, inner_new; rall. Qed.

Lemma x_increase w c i acc q p f : refines (g_increase_contracts (exact_ledger (c_dbg c)) w c i acc q p f) (increase_contracts c i acc q p f).
Proof. unfold g_increase_contracts, increase_contracts; rall. Qed.

Lemma x_decrease w c i acc q p long f :
  refines (g_decrease_contracts (exact_ledger (c_dbg c)) w c i acc q p long f) (decrease_contracts c i acc q p long f).
Proof.
  unfold g_decrease_contracts, decrease_contracts; cbv zeta.
  do 5 rgo.
  eapply r_pure with (a := if long then q else - q); [destruct long; rall|].
  apply r_bind; [apply r_pnl|]; intros profit.
  apply r_bind.
  { destruct (profit ?= 0); rall. }
  intros acc1; rall.
Qed.
#[local] Hint Resolve x_inner_new x_increase x_decrease : refs.

Lemma x_no_margin dbg0 dbg acc p :
  refines (g_no_position_margin (exact_ledger dbg0) dbg acc p) (debug_assert dbg (margin_balance_of acc POSITION_MARGIN =? 0) p).
Proof. unfold g_no_position_margin; rall. Qed.
#[local] Hint Resolve x_no_margin : refs.

Lemma x_change w c pos acc q p sd f :
  refines (g_change_position (exact_ledger (c_dbg c)) w c pos acc q p sd f) (change_position c pos acc q p sd f).
Proof. unfold g_change_position, change_position; cbv zeta; rall. Qed.
#[local] Hint Resolve x_change : refs.

(** ** Exchange *)
Lemma x_exchange_new c t : refines (g_exchange_new (exact_ledger (c_dbg c)) c t) (exchange_new c t).
Proof. unfold g_exchange_new, exchange_new; rall. Qed.

Lemma x_balances c e : refines (g_balances (exact_ledger (c_dbg c)) e) (Done (balances e)).
Proof. unfold g_balances; rall. Qed.
Lemma x_wallet c acc : refines (g_assert_user_wallet_balance (exact_ledger (c_dbg c)) acc) (assert_user_wallet_balance acc).
Proof. unfold g_assert_user_wallet_balance, assert_user_wallet_balance; rall. Qed.
Lemma x_empty c e :
  refines (g_empty_margin (exact_ledger (c_dbg c)) e)
    (Done (match ex_active e with [] => margin_balance_of (ex_acc e) ORDER_MARGIN =? 0 | _ => true end)).
Proof. unfold g_empty_margin; destruct (ex_active e); rall. Qed.
#[local] Hint Resolve x_exchange_new x_balances x_wallet x_empty : refs.

Lemma x_settle w c e o : refines (g_settle_filled_market_order (exact_ledger (c_dbg c)) w c e o) (settle_filled_market_order c e o).
Proof. unfold g_settle_filled_market_order, settle_filled_market_order; cbv zeta; rall. Qed.
#[local] Hint Resolve x_settle : refs.

Lemma x_submit_market w c e o : refines (g_submit_market_order (exact_ledger (c_dbg c)) w c e o) (submit_market_order c e o).
Proof. unfold g_submit_market_order, submit_market_order; cbv zeta; rall. Qed.
#[local] Hint Resolve x_submit_market : refs.

Lemma x_liquidate w c e : refines (g_liquidate (exact_ledger (c_dbg c)) w c e) (liquidate c e).
Proof. unfold g_liquidate, liquidate; rall. Qed.

Lemma x_append w c e o : refines (g_append_limit_order (exact_ledger (c_dbg c)) w c e o) (append_limit_order c e o).
Proof.
  unfold g_append_limit_order, append_limit_order; cbv zeta.
  rgo. rgo. rgo; [|apply r_ret]. rgo. rgo; [|apply r_ret].
  rgo. rgo. destruct (_ ?= _); [apply r_ret | | ]; rall.
Qed.
#[local] Hint Resolve x_liquidate x_append : refs.

Lemma x_submit_limit w c e o : refines (g_submit_limit_order (exact_ledger (c_dbg c)) w c e o) (submit_limit_order c e o).
Proof. unfold g_submit_limit_order, submit_limit_order; cbv zeta; rall. Qed.

Lemma x_cancel w c e b : refines (g_cancel_limit_order (exact_ledger (c_dbg c)) w c e b) (cancel_limit_order c e b).
Proof.
  unfold g_cancel_limit_order, cancel_limit_order; cbv zeta.
  rgo. rgo. rgo.
  assert (K : forall (removed : limit_order) act',
    refines
      (om' <~ Fine (om_remove (ex_om (set_active e act')) b) ;;
       new_om <~ w_computed_order_margin w c (set_om (set_active e act') om') ;;
       _ <~ Fine (assert (new_om <=? margin_balance_of (ex_acc e) ORDER_MARGIN) PCancelMarginGrows) ;;
       e3 <~ (if new_om <? margin_balance_of (ex_acc e) ORDER_MARGIN then
                delta <~ csub w (margin_balance_of (ex_acc e) ORDER_MARGIN) new_om ;;
                acc <~ l_transfer (exact_ledger (c_dbg c)) (ex_acc (set_om (set_active e act') om')) WALLET ORDER_MARGIN delta ;;
                ret (set_acc (set_om (set_active e act') om') acc)
              else ret (set_om (set_active e act') om')) ;;
       t <~ w_log_limit_order_cancellation w (ex_trk e3) ;;
       _ <~ Fine (assert (orders_eqb (ex_om (set_trk e3 t)) (ex_active (set_trk e3 t))) PCancelBooks) ;;
       b0 <~ g_empty_margin (exact_ledger (c_dbg c)) (set_trk e3 t) ;;
       _ <~ Fine (assert b0 PCancelEmptyMargin) ;;
       ret (set_trk e3 t, Ok (E := error) removed))
      (om' <- om_remove (ex_om (set_active e act')) b ;;
       new_om <- computed_order_margin c (set_om (set_active e act') om') ;;
       _ <- assert (new_om <=? margin_balance_of (ex_acc e) ORDER_MARGIN) PCancelMarginGrows ;;
       e3 <- (if new_om <? margin_balance_of (ex_acc e) ORDER_MARGIN then
                acc <- transfer (c_dbg c) (ex_acc (set_om (set_active e act') om')) WALLET ORDER_MARGIN
                         (margin_balance_of (ex_acc e) ORDER_MARGIN - new_om) ;;
                Done (set_acc (set_om (set_active e act') om') acc)
              else Done (set_om (set_active e act') om')) ;;
       _ <- assert (orders_eqb (ex_om (set_trk e3 (log_limit_order_cancellation (ex_trk e3))))
                      (ex_active (set_trk e3 (log_limit_order_cancellation (ex_trk e3))))) PCancelBooks ;;
       _ <- assert (match ex_active (set_trk e3 (log_limit_order_cancellation (ex_trk e3))) with
                    | [] => margin_balance_of (ex_acc (set_trk e3 (log_limit_order_cancellation (ex_trk e3))))
                              ORDER_MARGIN =? 0
                    | _ => true end) PCancelEmptyMargin ;;
       Done (set_trk e3 (log_limit_order_cancellation (ex_trk e3)), Ok removed))).
  { intros removed act'. rgo. rgo. rgo.
    apply r_bind; [destruct (_ <? _); rall|]. intros e3. rall. }
  destruct b as [id|uid].
  - destruct (remove_by_order_id (ex_active e) id) as [[removed act']|]; [apply K | apply r_ret].
  - destruct (remove_by_user_order_id (ex_active e) uid) as [[removed act']|]; [apply K | apply r_ret].
Qed.
#[local] Hint Resolve x_submit_limit x_cancel : refs.

Lemma x_amend w c e id o : refines (g_amend_limit_order (exact_ledger (c_dbg c)) w c e id o) (amend_limit_order c e id o).
Proof. unfold g_amend_limit_order, amend_limit_order; cbv zeta; rall. Qed.

Lemma x_fill_one w c u e ids o : refines (g_fill_one (exact_ledger (c_dbg c)) w c u e ids o) (fill_one c u e ids o).
Proof.
  unfold g_fill_one, fill_one; cbv zeta.
  rgo. rgo; [|apply r_ret]. rgo. rgo.
  apply r_bind; [apply r_debug_assert; rall|]; intros _.
  rgo. rgo.
  apply r_bind; [rall|]. intros [e1 ids1].
  rgo. rgo. rgo. rgo. rgo. rgo. rgo.
  apply r_bind; [destruct (_ <? _); rall|]. intros e4; apply r_ret.
Qed.
#[local] Hint Resolve x_amend x_fill_one : refs.

Lemma x_fill_loop w c u todo : forall e ids, refines (g_fill_loop (exact_ledger (c_dbg c)) w c u e ids todo) (fill_loop c u e ids todo).
Proof. induction todo as [|o rest IH]; intros e ids; cbn [g_fill_loop fill_loop]; rall. Qed.
#[local] Hint Resolve x_fill_loop : refs.

Lemma x_check w c e u : refines (g_check_active_orders (exact_ledger (c_dbg c)) w c e u) (check_active_orders c e u).
Proof.
  unfold g_check_active_orders, check_active_orders; cbv zeta.
  rgo; [apply r_ret|]. rgo. rgo. rgo. rgo. rgo. rgo.
  apply r_bind; [apply r_debug_assert_pure; rall|]; intros _.
  apply r_bind; [apply r_debug_assert; rall|]; intros _.
  rall.
Qed.
#[local] Hint Resolve x_check : refs.

Lemma x_update_state w c e u : refines (g_update_state (exact_ledger (c_dbg c)) w c e u) (update_state c e u).
Proof.
  unfold g_update_state, update_state; cbv zeta.
  rgo. rgo. rgo.
  destruct (should_trigger _ _) as [trig fire].
  destruct fire.
  - eapply r_pure.
    { eapply r_pure; [apply x_balances|]; eapply r_pure; [apply r_mid|]; eapply r_pure; [apply r_balances_sum|].
      apply r_ret. }
    eapply r_pure; [apply r_mm|]. destruct (check_maintenance_margin _ _ _ _); rall.
  - eapply r_pure; [apply r_ret|].
    eapply r_pure; [apply r_mm|]. destruct (check_maintenance_margin _ _ _ _); rall.
Qed.
#[local] Hint Resolve x_update_state : refs.

Lemma x_step w c e o : refines (g_step (exact_ledger (c_dbg c)) w c e o) (step c e o).
Proof. unfold g_step, step; destruct o; rall. Qed.
#[local] Hint Resolve x_step : refs.

Lemma x_run w c ops : forall e, refines (g_run (exact_ledger (c_dbg c)) w c e ops) (run c e ops).
Proof. induction ops as [|o ops IH]; intros e; cbn [g_run run]; rall. Qed.

Lemma x_init c : refines (g_init (exact_ledger (c_dbg c)) c) (init c).
Proof. unfold g_init, init; rall. Qed.
