(** The fixed width exchange overflows or behaves as the unbounded one. *)
From Verif Require Import Base Types Filters Accounting Currency Position OrderBook OrderMargin
  Risk MarketUpdate Tracker Exchange Width Fixed.

Definition refines {A} (m : checked A) (n : outcome A) : Prop := m = Overflow \/ m = Fine n.

Lemma r_ret {A} (a : A) : refines (ret a) (Done a).
Proof. right; reflexivity. Qed.

Lemma r_fine {A} (m : outcome A) : refines (Fine m) m.
Proof. right; reflexivity. Qed.

Lemma r_bind {A B} (m : checked A) n (k : A -> checked B) l :
  refines m n -> (forall a, refines (k a) (l a)) -> refines (cbind m k) (bind n l).
Proof.
  intros [-> | ->] H; [left; reflexivity|].
  destruct n; cbn; [apply H | right; reflexivity].
Qed.

Lemma r_pure {A B} (m : checked A) a (k : A -> checked B) n :
  refines m (Done a) -> refines (k a) n -> refines (cbind m k) n.
Proof. intros [-> | ->] H; [left; reflexivity | exact H]. Qed.

(** A check that is followed by nothing of the unbounded computation. *)
Lemma r_skip {A B} (m : checked A) a (n : outcome B) k :
  refines m (Done a) -> refines k n -> refines (cbind m (fun _ => k)) n.
Proof. intros H1 H2; eapply r_pure; eassumption. Qed.

Lemma r_chk w z : refines (chk w z) (Done z).
Proof. unfold chk; destruct (fits w z); [right | left]; reflexivity. Qed.

Lemma r_count z : refines (count z) (Done z).
Proof. unfold count; destruct (fits_unsigned 64 z); [right | left]; reflexivity. Qed.

Lemma r_cadd w a b : refines (cadd w a b) (Done (a + b)).
Proof. apply r_chk. Qed.
Lemma r_csub w a b : refines (csub w a b) (Done (a - b)).
Proof. apply r_chk. Qed.
Lemma r_cneg w a : refines (cneg w a) (Done (- a)).
Proof. apply r_chk. Qed.
Lemma r_cabs w a : refines (cabs w a) (Done (Z.abs a)).
Proof. apply r_chk. Qed.
Lemma r_cmul w s a b : refines (cmul w s a b) (Done (dmul s a b)).
Proof. apply r_chk. Qed.

Lemma bind_id {A} (m : outcome A) : bind m (fun x => Done x) = m.
Proof. destruct m; reflexivity. Qed.

Lemma r_cdiv w s a b : refines (cdiv w s a b) (ddiv s a b).
Proof.
  unfold cdiv; rewrite <- (bind_id (ddiv s a b)) at 2.
  apply r_bind; [apply r_fine | intros v; apply r_chk].
Qed.

Lemma r_crem w a b : refines (crem w a b) (drem a b).
Proof. unfold crem; destruct (_ && _); [left | right]; reflexivity. Qed.

Lemma r_debug_assert dbg m n p : refines m n -> refines (cdebug_assert_m dbg m p) (debug_assert_m dbg n p).
Proof.
  intros H; unfold cdebug_assert_m, debug_assert_m; destruct dbg; [|apply r_ret].
  apply r_bind; [assumption | intros v; apply r_fine].
Qed.

(** The same when the unbounded condition is a boolean. *)
Lemma r_debug_assert_pure dbg m b p :
  refines m (Done b) -> refines (cdebug_assert_m dbg m p) (debug_assert dbg b p).
Proof. intros H; exact (r_debug_assert dbg m (Done b) p H). Qed.

Create HintDb refs.
#[local] Hint Resolve r_ret r_fine r_chk r_count r_cadd r_csub r_cneg r_cabs r_cmul r_cdiv r_crem : refs.

Ltac rgo :=
  match goal with
  | |- refines (cbind ?m _) (bind ?n _) =>
      first [ apply r_bind; [solve [eauto 3 with refs] | intros ?]
            | eapply r_pure; [solve [eauto 3 with refs] | cbv beta] ]
  | |- refines (cbind ?m _) _ => eapply r_pure; [solve [eauto 3 with refs] | cbv beta]
  | |- refines (let '(_, _) := ?x in _) _ => destruct x
  | |- refines (match ?x with _ => _ end) (match ?x with _ => _ end) => destruct x
  | |- refines (if ?x then _ else _) (if ?x then _ else _) => destruct x
  | |- refines (cdebug_assert_m _ _ _) (debug_assert_m _ _ _) => apply r_debug_assert
  | |- refines (cdebug_assert_m _ _ _) (debug_assert _ _ _) => apply r_debug_assert_pure
  | |- _ => solve [eauto 3 with refs]
  end.
Ltac rall := repeat rgo.

(** ** Currencies *)
Lemma r_convert w k s u p : refines (w_convert_from w k s u p) (convert_from k s u p).
Proof. unfold w_convert_from, convert_from; rall. Qed.
#[local] Hint Resolve r_convert : refs.

Lemma r_pnl w k s a b q : refines (w_pnl w k s a b q) (pnl k s a b q).
Proof. unfold w_pnl, pnl; rall. Qed.
#[local] Hint Resolve r_pnl : refs.

Lemma r_liq_long w s p mm : refines (w_liquidation_price_long w s p mm) (Done (liquidation_price_long s p mm)).
Proof. unfold w_liquidation_price_long, liquidation_price_long; rall. Qed.
Lemma r_liq_short w s p mm : refines (w_liquidation_price_short w s p mm) (Done (liquidation_price_short s p mm)).
Proof. unfold w_liquidation_price_short, liquidation_price_short; rall. Qed.

Lemma r_weighted w s p0 w0 p1 w1 : refines (w_new_weighted_price w s p0 w0 p1 w1) (new_weighted_price s p0 w0 p1 w1).
Proof. unfold w_new_weighted_price, new_weighted_price; rall. Qed.
#[local] Hint Resolve r_liq_long r_liq_short r_weighted : refs.

(** ** Accounting *)
Lemma r_balance w acc id : refines (w_margin_balance_of w acc id) (Done (margin_balance_of acc id)).
Proof. apply r_csub. Qed.

Lemma r_sum w l : forall a, refines (w_sum w a l) (Done (fold_left Z.add l a)).
Proof. induction l as [|x l IH]; intros a; cbn [w_sum fold_left]; rall. Qed.

Lemma r_equation w dbg a : refines (w_accounting_equation w dbg a) (debug_assert_accounting_equation dbg a).
Proof.
  unfold w_accounting_equation, debug_assert_accounting_equation.
  apply r_debug_assert_pure.
  eapply r_pure; [apply r_sum|]; eapply r_pure; [apply r_sum|].
  cbn [map fold_left]; rewrite !Z.add_0_l; apply r_ret.
Qed.
#[local] Hint Resolve r_balance r_equation : refs.

Lemma r_accounting_new w dbg start : refines (w_accounting_new w dbg start) (accounting_new dbg start).
Proof.
  unfold w_accounting_new, accounting_new.
  eapply r_pure; [apply r_cadd|]; eapply r_pure; [apply r_cadd|]; cbv zeta.
  change (post_debit {| ta_debits := 0; ta_credits := 0 |} start) with {| ta_debits := 0 + start; ta_credits := 0 |}.
  change (post_credit {| ta_debits := 0; ta_credits := 0 |} start) with {| ta_debits := 0; ta_credits := 0 + start |}.
  apply r_bind; [apply r_equation | intros _; apply r_ret].
Qed.

Lemma r_transfer w dbg acc d c amt : refines (w_transfer w dbg acc d c amt) (transfer dbg acc d c amt).
Proof.
  unfold w_transfer, transfer; apply r_bind; [apply r_fine|]; intros tx.
  unfold create_margin_transfer; cbv zeta.
  eapply r_pure; [apply r_cadd|]; eapply r_pure; [apply r_cadd|].
  unfold post_debit, post_credit.
  apply r_bind; [apply r_equation | intros _; apply r_ret].
Qed.
#[local] Hint Resolve r_accounting_new r_transfer : refs.

(** ** Filters *)
Lemma r_limit_price w s f limit mark :
  refines (w_validate_limit_price w s f limit mark) (validate_limit_price s f limit mark).
Proof.
  unfold w_validate_limit_price, validate_limit_price; cbv zeta.
  do 3 rgo; try apply r_ret; [..]; try (match goal with |- context [pf_min] => idtac end; rall; fail).
  all: rall.
Qed.

Lemma r_step_size w step price : refines (w_enforce_step_size w step price) (enforce_step_size step price).
Proof. unfold w_enforce_step_size, enforce_step_size; rall. Qed.

Lemma r_quantity w f q : refines (w_validate_order_quantity w f q) (validate_order_quantity f q).
Proof. unfold w_validate_order_quantity, validate_order_quantity; cbv zeta; rall. Qed.
#[local] Hint Resolve r_limit_price r_step_size r_quantity : refs.

(** ** Position *)
Lemma r_inner_new w c acc q p f : refines (w_inner_new w c acc q p f) (inner_new c acc q p f).
Proof. unfold w_inner_new, inner_new; rall. Qed.

Lemma r_increase w c i acc q p f : refines (w_increase_contracts w c i acc q p f) (increase_contracts c i acc q p f).
Proof. unfold w_increase_contracts, increase_contracts; rall. Qed.

Lemma r_decrease w c i acc q p long f :
  refines (w_decrease_contracts w c i acc q p long f) (decrease_contracts c i acc q p long f).
Proof.
  unfold w_decrease_contracts, decrease_contracts; cbv zeta.
  do 5 rgo.
  eapply r_pure with (a := if long then q else - q); [destruct long; rall|].
  apply r_bind; [apply r_pnl|]; intros profit.
  apply r_bind.
  { destruct (profit ?= 0); rall. }
  intros acc1; rall.
Qed.
#[local] Hint Resolve r_inner_new r_increase r_decrease : refs.

Lemma r_no_margin w dbg acc p :
  refines (w_no_position_margin w dbg acc p) (debug_assert dbg (margin_balance_of acc POSITION_MARGIN =? 0) p).
Proof. unfold w_no_position_margin; rall. Qed.
#[local] Hint Resolve r_no_margin : refs.

Lemma r_change w c pos acc q p sd f :
  refines (w_change_position w c pos acc q p sd f) (change_position c pos acc q p sd f).
Proof. unfold w_change_position, change_position; cbv zeta; rall. Qed.
#[local] Hint Resolve r_change : refs.

(** ** Limit orders *)
Lemma r_total w o : refines (w_lo_total_quantity w o) (lo_total_quantity o).
Proof.
  unfold w_lo_total_quantity, lo_total_quantity; cbv zeta.
  eapply r_pure; [|].
  { instantiate (1 := match lo_filled o with Unfilled => lo_rem o | FilledQ cum _ => lo_rem o + cum end).
    destruct (lo_filled o); rall. }
  rall.
Qed.

Lemma r_order_fill w s o q ts : refines (w_order_fill w s o q ts) (order_fill s o q ts).
Proof. unfold w_order_fill, order_fill; cbv zeta; rall. Qed.
#[local] Hint Resolve r_total r_order_fill : refs.

(** ** Order margin *)
Lemma r_neg_all w l : refines (w_neg_all w l) (Done tt).
Proof. induction l as [|x l IH]; cbn [w_neg_all]; rall. Qed.

Lemma r_sort_keys w l : refines (w_sort_keys w l) (Done tt).
Proof.
  unfold w_sort_keys; destruct l as [|x [|y l]]; [apply r_ret | apply r_ret | apply r_neg_all].
Qed.

Lemma r_offset w l : forall out, refines (w_offset_orders w out l) (Done (offset_orders out l)).
Proof.
  induction l as [|[p q] l IH]; intros out; cbn [w_offset_orders offset_orders]; [apply r_ret|].
  destruct (0 <? out); rall.
Qed.
#[local] Hint Resolve r_sort_keys r_offset : refs.

Lemma r_orders_value w k s l : forall sum,
  refines (w_orders_value w k s sum l) (v <- orders_value k s l ;; Done (sum + v)).
Proof.
  induction l as [|[p q] l IH]; intros sum; cbn [w_orders_value orders_value].
  - cbn [bind]; rewrite Z.add_0_r; apply r_ret.
  - destruct (r_convert w k s q p) as [-> | ->]; [left; reflexivity|].
    destruct (convert_from k s q p) as [v|pn]; cbn [cbind bind]; [|right; reflexivity].
    eapply r_pure; [apply r_cadd|].
    specialize (IH (sum + v)); destruct (orders_value k s l) as [vs|pn]; cbn [bind] in *; [|exact IH].
    replace (sum + (v + vs)) with (sum + v + vs) by ring; exact IH.
Qed.

Lemma r_value w k s l : refines (w_orders_value w k s 0 l) (orders_value k s l).
Proof.
  generalize (r_orders_value w k s l 0).
  destruct (orders_value k s l); cbn [bind]; auto.
Qed.
#[local] Hint Resolve r_value : refs.

Lemma r_om_internal w c book pos o :
  refines (w_order_margin_internal w c book pos o) (order_margin_internal c book pos o).
Proof.
  unfold w_order_margin_internal, order_margin_internal; cbv zeta.
  rgo. rgo. destruct pos; rall.
Qed.
Lemma r_om w c book pos : refines (w_order_margin w c book pos) (order_margin c book pos).
Proof. apply r_om_internal. Qed.
Lemma r_om_with w c book pos o : refines (w_order_margin_with_order w c book pos o) (order_margin_with_order c book pos o).
Proof. apply r_om_internal. Qed.
#[local] Hint Resolve r_om r_om_with : refs.

(** ** Risk engine *)
Lemma r_open w c q p wallet : refines (w_check_market_open w c q p wallet) (check_market_open c q p wallet).
Proof. unfold w_check_market_open, check_market_open; cbv zeta; rall. Qed.
Lemma r_reduce w c i pm q p wallet :
  refines (w_check_market_reduce w c i pm q p wallet) (check_market_reduce c i pm q p wallet).
Proof. unfold w_check_market_reduce, check_market_reduce; cbv zeta; rall. Qed.
#[local] Hint Resolve r_open r_reduce : refs.

Lemma r_market w c pos pm sd q p wallet :
  refines (w_check_market_order w c pos pm sd q p wallet) (check_market_order c pos pm sd q p wallet).
Proof. unfold w_check_market_order, check_market_order; rall. Qed.
Lemma r_limit w c pos o wallet book :
  refines (w_check_limit_order w c pos o wallet book) (check_limit_order c pos o wallet book).
Proof. unfold w_check_limit_order, check_limit_order; rall. Qed.
Lemma r_mm w c bid ask pos :
  refines (w_check_maintenance_margin w c bid ask pos) (Done (check_maintenance_margin c bid ask pos)).
Proof. unfold w_check_maintenance_margin, check_maintenance_margin; cbv zeta; destruct pos; rall. Qed.
#[local] Hint Resolve r_market r_limit r_mm : refs.

(** ** Market updates *)
Lemma r_mid w m : refines (w_mid_price w m) (Done (mid_price m)).
Proof. unfold w_mid_price, mid_price; rall. Qed.
#[local] Hint Resolve r_mid : refs.

Lemma r_and_then {E A B} (m : checked (result E A)) n (k : checked (result E B)) l :
  refines m n -> refines k l -> refines (w_and_then m k) (and_then n l).
Proof. intros; unfold w_and_then, and_then; apply r_bind; [assumption|]; intros x; destruct x; rall. Qed.

Ltac rand := repeat (apply r_and_then; [solve [eauto 3 with refs]|]); eauto 3 with refs.

Lemma r_validate_bba w f b : refines (w_validate_bba w f b) (validate_bba f b).
Proof. unfold w_validate_bba, validate_bba; rand. Qed.
Lemma r_validate_trade w f t : refines (w_validate_trade w f t) (validate_trade f t).
Proof. unfold w_validate_trade, validate_trade; rand. Qed.
Lemma r_validate_candle w f k : refines (w_validate_candle w f k) (validate_candle f k).
Proof. unfold w_validate_candle, validate_candle; rand. Qed.
#[local] Hint Resolve r_validate_bba r_validate_trade r_validate_candle : refs.
Lemma r_validate w f u : refines (w_validate_market_update w f u) (validate_market_update f u).
Proof. unfold w_validate_market_update, validate_market_update; destruct u; rall. Qed.
#[local] Hint Resolve r_validate : refs.

Lemma r_market_update w dbg f u m :
  refines (w_market_update_state w dbg f u m) (market_update_state dbg f u m).
Proof.
  unfold w_market_update_state, market_update_state; cbv zeta.
  apply r_bind; [apply r_debug_assert; rall|]; intros _; rall.
Qed.

Lemma r_any_valid w f l : refines (w_any_valid w f l) (any_valid f l).
Proof. induction l as [|t l IH]; cbn [w_any_valid any_valid]; rall. Qed.
#[local] Hint Resolve r_market_update r_any_valid : refs.

Lemma r_aggregate_loop w l : forall last sum, refines (w_aggregate_loop w last sum l) (Done (aggregate_loop last sum l)).
Proof.
  induction l as [|[p q] l IH]; intros last sum; cbn [w_aggregate_loop aggregate_loop]; [apply r_ret|].
  eapply r_pure; [apply r_cadd|]; destruct (p =? last); rall.
Qed.
Lemma r_aggregate w l : refines (w_aggregate w l) (Done (aggregate l)).
Proof. unfold w_aggregate, aggregate; destruct l as [|[p q] l]; [apply r_ret | apply r_aggregate_loop]. Qed.
#[local] Hint Resolve r_aggregate : refs.

Lemma r_smart w dbg ts b f : refines (w_smart_candle_new w dbg ts b f) (smart_candle_new dbg ts b f).
Proof.
  unfold w_smart_candle_new, smart_candle_new; cbv zeta; destruct ts as [|t0 ts]; [apply r_fine|].
  apply r_bind; [apply r_debug_assert; rall|]; intros _; rall.
Qed.
#[local] Hint Resolve r_smart : refs.
Lemma r_build w dbg r : refines (w_build_update w dbg r) (build_update dbg r).
Proof. unfold w_build_update, build_update; destruct r; rall. Qed.

(** ** Tracker *)
Lemma r_tracker_add w t a b c d e f g h :
  refines (w_tracker_add w t a b c d e f g h) (Done (tracker_add t a b c d e f g h)).
Proof. unfold w_tracker_add; rall. Qed.

Lemma r_log_submission w t : refines (w_log_limit_order_submission w t) (Done (log_limit_order_submission t)).
Proof. apply r_tracker_add. Qed.
Lemma r_log_cancellation w t : refines (w_log_limit_order_cancellation w t) (Done (log_limit_order_cancellation t)).
Proof. apply r_tracker_add. Qed.
Lemma r_log_fill w t b : refines (w_log_limit_order_fill w t b) (Done (log_limit_order_fill t b)).
Proof. apply r_tracker_add. Qed.
Lemma r_log_mfill w t : refines (w_log_market_order_fill w t) (Done (log_market_order_fill t)).
Proof. apply r_tracker_add. Qed.
Lemma r_log_msub w t : refines (w_log_market_order_submission w t) (Done (log_market_order_submission t)).
Proof. apply r_tracker_add. Qed.
#[local] Hint Resolve r_build r_tracker_add r_log_submission r_log_cancellation r_log_fill r_log_mfill r_log_msub : refs.

Lemma r_log_trade w c t sd p q : refines (w_log_trade w c t sd p q) (log_trade c t sd p q).
Proof. unfold w_log_trade, log_trade; rgo; rgo; destruct sd; rall. Qed.
Lemma r_tracker_update w t m : refines (w_tracker_update w t m) (Done (tracker_update t m)).
Proof. unfold w_tracker_update; rall. Qed.
Lemma r_trigger t ts : refines (w_should_trigger t ts) (Done (should_trigger t ts)).
Proof. unfold w_should_trigger; destruct (tg_init t); rall. Qed.
#[local] Hint Resolve r_log_trade r_tracker_update r_trigger : refs.

(** ** Exchange *)
Lemma r_exchange_new w c t : refines (w_exchange_new w c t) (exchange_new c t).
Proof. unfold w_exchange_new, exchange_new; rall. Qed.

Lemma r_balances w e : refines (w_balances w e) (Done (balances e)).
Proof. unfold w_balances; rall. Qed.
Lemma r_balances_sum w b : refines (w_balances_sum w b) (Done (balances_sum b)).
Proof. unfold w_balances_sum, balances_sum; rall. Qed.
Lemma r_wallet w acc : refines (w_assert_user_wallet_balance w acc) (assert_user_wallet_balance acc).
Proof. unfold w_assert_user_wallet_balance, assert_user_wallet_balance; rall. Qed.
Lemma r_computed w c e : refines (w_computed_order_margin w c e) (computed_order_margin c e).
Proof. apply r_om. Qed.
Lemma r_empty w e :
  refines (w_empty_margin w e)
    (Done (match ex_active e with [] => margin_balance_of (ex_acc e) ORDER_MARGIN =? 0 | _ => true end)).
Proof. unfold w_empty_margin; destruct (ex_active e); rall. Qed.
#[local] Hint Resolve r_exchange_new r_balances r_balances_sum r_wallet r_computed r_empty : refs.

Lemma r_settle w c e o : refines (w_settle_filled_market_order w c e o) (settle_filled_market_order c e o).
Proof. unfold w_settle_filled_market_order, settle_filled_market_order; cbv zeta; rall. Qed.
#[local] Hint Resolve r_settle : refs.

Lemma r_submit_market w c e o : refines (w_submit_market_order w c e o) (submit_market_order c e o).
Proof. unfold w_submit_market_order, submit_market_order; cbv zeta; rall. Qed.
#[local] Hint Resolve r_submit_market : refs.

Lemma r_liquidate w c e : refines (w_liquidate w c e) (liquidate c e).
Proof. unfold w_liquidate, liquidate; rall. Qed.

Lemma r_append w c e o : refines (w_append_limit_order w c e o) (append_limit_order c e o).
Proof.
  unfold w_append_limit_order, append_limit_order; cbv zeta.
  rgo. rgo. rgo; [|apply r_ret]. rgo. rgo; [|apply r_ret].
  rgo. rgo. destruct (_ ?= _); [apply r_ret | | ]; rall.
Qed.
#[local] Hint Resolve r_liquidate r_append : refs.

Lemma r_submit_limit w c e o : refines (w_submit_limit_order w c e o) (submit_limit_order c e o).
Proof. unfold w_submit_limit_order, submit_limit_order; cbv zeta; rall. Qed.

Lemma r_cancel w c e b : refines (w_cancel_limit_order w c e b) (cancel_limit_order c e b).
Proof.
  unfold w_cancel_limit_order, cancel_limit_order; cbv zeta.
  rgo. rgo. rgo.
  assert (K : forall (removed : limit_order) act',
    refines
      (om' <~ Fine (om_remove (ex_om (set_active e act')) b) ;;
       new_om <~ w_computed_order_margin w c (set_om (set_active e act') om') ;;
       _ <~ Fine (assert (new_om <=? margin_balance_of (ex_acc e) ORDER_MARGIN) PCancelMarginGrows) ;;
       e3 <~ (if new_om <? margin_balance_of (ex_acc e) ORDER_MARGIN then
                delta <~ csub w (margin_balance_of (ex_acc e) ORDER_MARGIN) new_om ;;
                acc <~ w_transfer w (c_dbg c) (ex_acc (set_om (set_active e act') om')) WALLET ORDER_MARGIN delta ;;
                ret (set_acc (set_om (set_active e act') om') acc)
              else ret (set_om (set_active e act') om')) ;;
       t <~ w_log_limit_order_cancellation w (ex_trk e3) ;;
       _ <~ Fine (assert (orders_eqb (ex_om (set_trk e3 t)) (ex_active (set_trk e3 t))) PCancelBooks) ;;
       b0 <~ w_empty_margin w (set_trk e3 t) ;;
       _ <~ Fine (assert b0 PCancelEmptyMargin) ;;
       ret (set_trk e3 t, Ok (E := error) removed))
      (om' <- om_remove (ex_om (set_active e act')) b ;;
       new_om <- computed_order_margin c (set_om (set_active e act') om') ;;
       _ <- assert (new_om <=? margin_balance_of (ex_acc e) ORDER_MARGIN) PCancelMarginGrows ;;
       e3 <- (if new_om <? margin_balance_of (ex_acc e) ORDER_MARGIN then
                acc <- transfer (c_dbg c) (ex_acc (set_om (set_active e act') om')) WALLET ORDER_MARGIN
                         (margin_balance_of (ex_acc e) ORDER_MARGIN - new_om) ;;
                Done (set_acc (set_om (set_active e act') om') acc)
              else Done (set_om (set_active e act') om')) ;;
       _ <- assert (orders_eqb (ex_om (set_trk e3 (log_limit_order_cancellation (ex_trk e3))))
                      (ex_active (set_trk e3 (log_limit_order_cancellation (ex_trk e3))))) PCancelBooks ;;
       _ <- assert (match ex_active (set_trk e3 (log_limit_order_cancellation (ex_trk e3))) with
                    | [] => margin_balance_of (ex_acc (set_trk e3 (log_limit_order_cancellation (ex_trk e3))))
                              ORDER_MARGIN =? 0
                    | _ => true end) PCancelEmptyMargin ;;
       Done (set_trk e3 (log_limit_order_cancellation (ex_trk e3)), Ok removed))).
  { intros removed act'. rgo. rgo. rgo.
    apply r_bind; [destruct (_ <? _); rall|]. intros e3. rall. }
  destruct b as [id|uid].
  - destruct (remove_by_order_id (ex_active e) id) as [[removed act']|]; [apply K | apply r_ret].
  - destruct (remove_by_user_order_id (ex_active e) uid) as [[removed act']|]; [apply K | apply r_ret].
Qed.
#[local] Hint Resolve r_submit_limit r_cancel : refs.

Lemma r_amend w c e id o : refines (w_amend_limit_order w c e id o) (amend_limit_order c e id o).
Proof. unfold w_amend_limit_order, amend_limit_order; cbv zeta; rall. Qed.

Lemma r_fill_one w c u e ids o : refines (w_fill_one w c u e ids o) (fill_one c u e ids o).
Proof.
  unfold w_fill_one, fill_one; cbv zeta.
  rgo. rgo; [|apply r_ret]. rgo. rgo.
  apply r_bind; [apply r_debug_assert; rall|]; intros _.
  rgo. rgo.
  apply r_bind; [rall|]. intros [e1 ids1].
  rgo. rgo. rgo. rgo. rgo. rgo. rgo.
  apply r_bind; [destruct (_ <? _); rall|]. intros e4; apply r_ret.
Qed.
#[local] Hint Resolve r_amend r_fill_one : refs.

Lemma r_fill_loop w c u todo : forall e ids, refines (w_fill_loop w c u e ids todo) (fill_loop c u e ids todo).
Proof. induction todo as [|o rest IH]; intros e ids; cbn [w_fill_loop fill_loop]; rall. Qed.
#[local] Hint Resolve r_fill_loop : refs.

Lemma r_check w c e u : refines (w_check_active_orders w c e u) (check_active_orders c e u).
Proof.
  unfold w_check_active_orders, check_active_orders; cbv zeta.
  rgo; [apply r_ret|]. rgo. rgo. rgo. rgo. rgo. rgo.
  apply r_bind; [apply r_debug_assert_pure; rall|]; intros _.
  apply r_bind; [apply r_debug_assert; rall|]; intros _.
  rall.
Qed.
#[local] Hint Resolve r_check : refs.

Lemma r_update_state w c e u : refines (w_update_state w c e u) (update_state c e u).
Proof.
  unfold w_update_state, update_state; cbv zeta.
  rgo. rgo. rgo.
  destruct (should_trigger _ _) as [trig fire].
  destruct fire.
  - eapply r_pure.
    { eapply r_pure; [apply r_balances|]; eapply r_pure; [apply r_mid|]; eapply r_pure; [apply r_balances_sum|].
      apply r_ret. }
    eapply r_pure; [apply r_mm|]. destruct (check_maintenance_margin _ _ _ _); rall.
  - eapply r_pure; [apply r_ret|].
    eapply r_pure; [apply r_mm|]. destruct (check_maintenance_margin _ _ _ _); rall.
Qed.
#[local] Hint Resolve r_update_state : refs.

Lemma r_map_out {S E A B} (f : A -> B) (m : checked (S * result E A)) n :
  refines m n -> refines (w_map_out f m) (map_out f n).
Proof. intros; unfold w_map_out, map_out; apply r_bind; [assumption|]; intros [s r]; apply r_ret. Qed.
#[local] Hint Resolve r_map_out : refs.

Lemma r_step w c e o : refines (w_step w c e o) (step c e o).
Proof. unfold w_step, step; destruct o; rall. Qed.
#[local] Hint Resolve r_step : refs.

Lemma r_run w c ops : forall e, refines (w_run w c e ops) (run c e ops).
Proof. induction ops as [|o ops IH]; intros e; cbn [w_run run]; rall. Qed.

Lemma r_init w c : refines (w_init w c) (init c).
Proof. unfold w_init, init; rall. Qed.
