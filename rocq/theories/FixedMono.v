(** A wider integer type never overflows earlier. *)
From Verif Require Import Base Types Filters Accounting Currency Position OrderBook OrderMargin
  Risk MarketUpdate Tracker Exchange Width Fixed.

(** [n] agrees with [m] unless [m] overflows. *)
Definition extends {A} (m n : checked A) : Prop := m = Overflow \/ m = n.

Lemma l_refl {A} (m : checked A) : extends m m.
Proof. right; reflexivity. Qed.

Lemma l_bind {A B} (m n : checked A) (k l : A -> checked B) :
  extends m n -> (forall a, extends (k a) (l a)) -> extends (cbind m k) (cbind n l).
Proof.
  intros [-> | ->] H; [left; reflexivity|].
  destruct n as [[a|p]|]; cbn; [apply H | right; reflexivity | left; reflexivity].
Qed.

Lemma fits_wider w w' z : w <= w' -> fits w z = true -> fits w' z = true.
Proof.
  unfold fits; intros Hw H; apply andb_prop in H as [H1 H2].
  destruct (Z.le_gt_cases (w - 1) 0) as [Hz|Hz].
  - assert (Hp : 0 <= 2 ^ (w' - 1)) by (apply Z.pow_nonneg; lia).
    assert (He : w - 1 = 0 \/ 2 ^ (w - 1) = 0).
    { destruct (Z.eq_dec (w - 1) 0); [left; assumption | right; apply Z.pow_neg_r; lia]. }
    destruct He as [He|He].
    + rewrite He in *; change (2 ^ 0) with 1 in *.
      assert (0 < 2 ^ (w' - 1)) by (apply Z.pow_pos_nonneg; lia).
      apply andb_true_intro; split; lia.
    + rewrite He in *; lia.
  - assert (2 ^ (w - 1) <= 2 ^ (w' - 1)) by (apply Z.pow_le_mono_r; lia).
    apply andb_true_intro; split; lia.
Qed.

Lemma l_chk w w' z : w <= w' -> extends (chk w z) (chk w' z).
Proof.
  intros Hw; unfold chk; destruct (fits w z) eqn:E; [|left; reflexivity].
  rewrite (fits_wider w w' z Hw E); right; reflexivity.
Qed.
Lemma l_cadd w w' a b : w <= w' -> extends (cadd w a b) (cadd w' a b).
Proof. apply l_chk. Qed.
Lemma l_csub w w' a b : w <= w' -> extends (csub w a b) (csub w' a b).
Proof. apply l_chk. Qed.
Lemma l_cneg w w' a : w <= w' -> extends (cneg w a) (cneg w' a).
Proof. apply l_chk. Qed.
Lemma l_cabs w w' a : w <= w' -> extends (cabs w a) (cabs w' a).
Proof. apply l_chk. Qed.
Lemma l_cmul w w' s a b : w <= w' -> extends (cmul w s a b) (cmul w' s a b).
Proof. apply l_chk. Qed.
Lemma l_cdiv w w' s a b : w <= w' -> extends (cdiv w s a b) (cdiv w' s a b).
Proof. intros; apply l_bind; [apply l_refl | intros; apply l_chk; assumption]. Qed.
Lemma l_crem w w' a b : w <= w' -> extends (crem w a b) (crem w' a b).
Proof.
  intros Hw; unfold crem; destruct (b =? - 1); cbn [andb]; [|apply l_refl].
  destruct (fits w (- a)) eqn:E; cbn [negb]; [|left; reflexivity].
  rewrite (fits_wider w w' _ Hw E); apply l_refl.
Qed.
Lemma l_debug dbg m n p : extends m n -> extends (cdebug_assert_m dbg m p) (cdebug_assert_m dbg n p).
Proof.
  intros H; unfold cdebug_assert_m; destruct dbg; [|apply l_refl].
  apply l_bind; [assumption | intros; apply l_refl].
Qed.
Lemma l_and_then {E A B} (m n : checked (result E A)) (k l : checked (result E B)) :
  extends m n -> extends k l -> extends (w_and_then m k) (w_and_then n l).
Proof. intros; apply l_bind; [assumption|]; intros [x|x]; [assumption | apply l_refl]. Qed.
Lemma l_map_out {S E A B} (f : A -> B) (m n : checked (S * result E A)) :
  extends m n -> extends (w_map_out f m) (w_map_out f n).
Proof. intros; apply l_bind; [assumption|]; intros [x y]; apply l_refl. Qed.

Create HintDb exts.
#[local] Hint Constants Opaque : exts.
#[local] Hint Resolve l_cadd l_csub l_cneg l_cabs l_cmul l_cdiv l_crem l_chk : exts.

Ltac lgo :=
  match goal with
  | |- extends ?m ?m => apply l_refl
  | |- extends (cbind _ _) (cbind _ _) => apply l_bind; [|intros ?]
  | |- extends (w_and_then _ _) (w_and_then _ _) => apply l_and_then
  | |- extends (w_map_out _ _) (w_map_out _ _) => apply l_map_out
  | |- extends (cdebug_assert_m _ _ _) (cdebug_assert_m _ _ _) => apply l_debug
  | |- extends (let '(_, _) := ?x in _) _ => destruct x
  | |- extends (match ?x with _ => _ end) (match ?x with _ => _ end) => destruct x
  | |- extends (if ?x then _ else _) (if ?x then _ else _) => destruct x
  | |- _ => solve [eauto 3 with exts]
  end.
Ltac lall := cbv zeta; repeat lgo.

Lemma l_convert_from w w' k s units price : w <= w' -> extends (w_convert_from w k s units price) (w_convert_from w' k s units price).
Proof. intros Hw; unfold w_convert_from; lall. Qed.
#[local] Hint Resolve l_convert_from : exts.

Lemma l_pnl w w' k s entry exit qty : w <= w' -> extends (w_pnl w k s entry exit qty) (w_pnl w' k s entry exit qty).
Proof. intros Hw; unfold w_pnl; lall. Qed.
#[local] Hint Resolve l_pnl : exts.

Lemma l_liquidation_price_long w w' s price mm : w <= w' -> extends (w_liquidation_price_long w s price mm) (w_liquidation_price_long w' s price mm).
Proof. intros Hw; unfold w_liquidation_price_long; lall. Qed.
#[local] Hint Resolve l_liquidation_price_long : exts.

Lemma l_liquidation_price_short w w' s price mm : w <= w' -> extends (w_liquidation_price_short w s price mm) (w_liquidation_price_short w' s price mm).
Proof. intros Hw; unfold w_liquidation_price_short; lall. Qed.
#[local] Hint Resolve l_liquidation_price_short : exts.

Lemma l_new_weighted_price w w' s p0 w0 p1 w1 : w <= w' -> extends (w_new_weighted_price w s p0 w0 p1 w1) (w_new_weighted_price w' s p0 w0 p1 w1).
Proof. intros Hw; unfold w_new_weighted_price; lall. Qed.
#[local] Hint Resolve l_new_weighted_price : exts.

Lemma l_margin_balance_of w w' acc id : w <= w' -> extends (w_margin_balance_of w acc id) (w_margin_balance_of w' acc id).
Proof. intros Hw; unfold w_margin_balance_of; lall. Qed.
#[local] Hint Resolve l_margin_balance_of : exts.

Lemma l_sum w w' acc l : w <= w' -> extends (w_sum w acc l) (w_sum w' acc l).
Proof. intros Hw; revert acc; induction l as [|x l IH]; intros; cbn [w_sum]; [|try destruct x]; lall. Qed.
#[local] Hint Resolve l_sum : exts.

Lemma l_accounting_equation w w' dbg a : w <= w' -> extends (w_accounting_equation w dbg a) (w_accounting_equation w' dbg a).
Proof. intros Hw; unfold w_accounting_equation; lall. Qed.
#[local] Hint Resolve l_accounting_equation : exts.

Lemma l_accounting_new w w' dbg start : w <= w' -> extends (w_accounting_new w dbg start) (w_accounting_new w' dbg start).
Proof. intros Hw; unfold w_accounting_new; lall. Qed.
#[local] Hint Resolve l_accounting_new : exts.

Lemma l_transfer w w' dbg acc d c amt : w <= w' -> extends (w_transfer w dbg acc d c amt) (w_transfer w' dbg acc d c amt).
Proof. intros Hw; unfold w_transfer; lall. Qed.
#[local] Hint Resolve l_transfer : exts.

Lemma l_validate_limit_price w w' s f limit mark : w <= w' -> extends (w_validate_limit_price w s f limit mark) (w_validate_limit_price w' s f limit mark).
Proof. intros Hw; unfold w_validate_limit_price; lall. Qed.
#[local] Hint Resolve l_validate_limit_price : exts.

Lemma l_enforce_step_size w w' step price : w <= w' -> extends (w_enforce_step_size w step price) (w_enforce_step_size w' step price).
Proof. intros Hw; unfold w_enforce_step_size; lall. Qed.
#[local] Hint Resolve l_enforce_step_size : exts.

Lemma l_validate_order_quantity w w' f q : w <= w' -> extends (w_validate_order_quantity w f q) (w_validate_order_quantity w' f q).
Proof. intros Hw; unfold w_validate_order_quantity; lall. Qed.
#[local] Hint Resolve l_validate_order_quantity : exts.

Lemma l_inner_new w w' c acc qty price fees : w <= w' -> extends (w_inner_new w c acc qty price fees) (w_inner_new w' c acc qty price fees).
Proof. intros Hw; unfold w_inner_new; lall. Qed.
#[local] Hint Resolve l_inner_new : exts.

Lemma l_increase_contracts w w' c p acc qty price fees : w <= w' -> extends (w_increase_contracts w c p acc qty price fees) (w_increase_contracts w' c p acc qty price fees).
Proof. intros Hw; unfold w_increase_contracts; lall. Qed.
#[local] Hint Resolve l_increase_contracts : exts.

Lemma l_decrease_contracts w w' c p acc qty price long fees : w <= w' -> extends (w_decrease_contracts w c p acc qty price long fees) (w_decrease_contracts w' c p acc qty price long fees).
Proof. intros Hw; unfold w_decrease_contracts; lall. Qed.
#[local] Hint Resolve l_decrease_contracts : exts.

Lemma l_no_position_margin w w' dbg acc p : w <= w' -> extends (w_no_position_margin w dbg acc p) (w_no_position_margin w' dbg acc p).
Proof. intros Hw; unfold w_no_position_margin; lall. Qed.
#[local] Hint Resolve l_no_position_margin : exts.

Lemma l_change_position w w' c pos acc qty price sd fees : w <= w' -> extends (w_change_position w c pos acc qty price sd fees) (w_change_position w' c pos acc qty price sd fees).
Proof. intros Hw; unfold w_change_position; lall. Qed.
#[local] Hint Resolve l_change_position : exts.

Lemma l_lo_total_quantity w w' o : w <= w' -> extends (w_lo_total_quantity w o) (w_lo_total_quantity w' o).
Proof. intros Hw; unfold w_lo_total_quantity; lall. Qed.
#[local] Hint Resolve l_lo_total_quantity : exts.

Lemma l_order_fill w w' s o q ts : w <= w' -> extends (w_order_fill w s o q ts) (w_order_fill w' s o q ts).
Proof. intros Hw; unfold w_order_fill; lall. Qed.
#[local] Hint Resolve l_order_fill : exts.

Lemma l_neg_all w w' l : w <= w' -> extends (w_neg_all w l) (w_neg_all w' l).
Proof. intros Hw; induction l as [|x l IH]; intros; cbn [w_neg_all]; [|try destruct x]; lall. Qed.
#[local] Hint Resolve l_neg_all : exts.

Lemma l_sort_keys w w' l : w <= w' -> extends (w_sort_keys w l) (w_sort_keys w' l).
Proof. intros Hw; unfold w_sort_keys; lall. Qed.
#[local] Hint Resolve l_sort_keys : exts.

Lemma l_offset_orders w w' outstanding orders : w <= w' -> extends (w_offset_orders w outstanding orders) (w_offset_orders w' outstanding orders).
Proof. intros Hw; revert outstanding; induction orders as [|x orders IH]; intros; cbn [w_offset_orders]; [|try destruct x]; lall. Qed.
#[local] Hint Resolve l_offset_orders : exts.

Lemma l_orders_value w w' k s sum orders : w <= w' -> extends (w_orders_value w k s sum orders) (w_orders_value w' k s sum orders).
Proof. intros Hw; revert k s sum; induction orders as [|x orders IH]; intros; cbn [w_orders_value]; [|try destruct x]; lall. Qed.
#[local] Hint Resolve l_orders_value : exts.

Lemma l_order_margin_internal w w' c book pos new_order : w <= w' -> extends (w_order_margin_internal w c book pos new_order) (w_order_margin_internal w' c book pos new_order).
Proof. intros Hw; unfold w_order_margin_internal; lall. Qed.
#[local] Hint Resolve l_order_margin_internal : exts.

Lemma l_order_margin w w' c book pos : w <= w' -> extends (w_order_margin w c book pos) (w_order_margin w' c book pos).
Proof. intros Hw; unfold w_order_margin; lall. Qed.
#[local] Hint Resolve l_order_margin : exts.

Lemma l_order_margin_with_order w w' c book pos o : w <= w' -> extends (w_order_margin_with_order w c book pos o) (w_order_margin_with_order w' c book pos o).
Proof. intros Hw; unfold w_order_margin_with_order; lall. Qed.
#[local] Hint Resolve l_order_margin_with_order : exts.

Lemma l_check_market_open w w' c qty price wallet : w <= w' -> extends (w_check_market_open w c qty price wallet) (w_check_market_open w' c qty price wallet).
Proof. intros Hw; unfold w_check_market_open; lall. Qed.
#[local] Hint Resolve l_check_market_open : exts.

Lemma l_check_market_reduce w w' c inner position_margin qty price wallet : w <= w' -> extends (w_check_market_reduce w c inner position_margin qty price wallet) (w_check_market_reduce w' c inner position_margin qty price wallet).
Proof. intros Hw; unfold w_check_market_reduce; lall. Qed.
#[local] Hint Resolve l_check_market_reduce : exts.

Lemma l_check_market_order w w' c pos position_margin sd qty price wallet : w <= w' -> extends (w_check_market_order w c pos position_margin sd qty price wallet) (w_check_market_order w' c pos position_margin sd qty price wallet).
Proof. intros Hw; unfold w_check_market_order; lall. Qed.
#[local] Hint Resolve l_check_market_order : exts.

Lemma l_check_limit_order w w' c pos o wallet book : w <= w' -> extends (w_check_limit_order w c pos o wallet book) (w_check_limit_order w' c pos o wallet book).
Proof. intros Hw; unfold w_check_limit_order; lall. Qed.
#[local] Hint Resolve l_check_limit_order : exts.

Lemma l_check_maintenance_margin w w' c bid ask pos : w <= w' -> extends (w_check_maintenance_margin w c bid ask pos) (w_check_maintenance_margin w' c bid ask pos).
Proof. intros Hw; unfold w_check_maintenance_margin; lall. Qed.
#[local] Hint Resolve l_check_maintenance_margin : exts.

Lemma l_mid_price w w' m : w <= w' -> extends (w_mid_price w m) (w_mid_price w' m).
Proof. intros Hw; unfold w_mid_price; lall. Qed.
#[local] Hint Resolve l_mid_price : exts.

Lemma l_validate_bba w w' f b : w <= w' -> extends (w_validate_bba w f b) (w_validate_bba w' f b).
Proof. intros Hw; unfold w_validate_bba; lall. Qed.
#[local] Hint Resolve l_validate_bba : exts.

Lemma l_validate_trade w w' f t : w <= w' -> extends (w_validate_trade w f t) (w_validate_trade w' f t).
Proof. intros Hw; unfold w_validate_trade; lall. Qed.
#[local] Hint Resolve l_validate_trade : exts.

Lemma l_validate_candle w w' f k : w <= w' -> extends (w_validate_candle w f k) (w_validate_candle w' f k).
Proof. intros Hw; unfold w_validate_candle; lall. Qed.
#[local] Hint Resolve l_validate_candle : exts.

Lemma l_validate_market_update w w' f u : w <= w' -> extends (w_validate_market_update w f u) (w_validate_market_update w' f u).
Proof. intros Hw; unfold w_validate_market_update; lall. Qed.
#[local] Hint Resolve l_validate_market_update : exts.

Lemma l_market_update_state w w' dbg f u m : w <= w' -> extends (w_market_update_state w dbg f u m) (w_market_update_state w' dbg f u m).
Proof. intros Hw; unfold w_market_update_state; lall. Qed.
#[local] Hint Resolve l_market_update_state : exts.

Lemma l_any_valid w w' f l : w <= w' -> extends (w_any_valid w f l) (w_any_valid w' f l).
Proof. intros Hw; revert f; induction l as [|x l IH]; intros; cbn [w_any_valid]; [|try destruct x]; lall. Qed.
#[local] Hint Resolve l_any_valid : exts.

Lemma l_aggregate_loop w w' last sum l : w <= w' -> extends (w_aggregate_loop w last sum l) (w_aggregate_loop w' last sum l).
Proof. intros Hw; revert last sum; induction l as [|x l IH]; intros; cbn [w_aggregate_loop]; [|try destruct x]; lall. Qed.
#[local] Hint Resolve l_aggregate_loop : exts.

Lemma l_aggregate w w' l : w <= w' -> extends (w_aggregate w l) (w_aggregate w' l).
Proof. intros Hw; unfold w_aggregate; lall. Qed.
#[local] Hint Resolve l_aggregate : exts.

Lemma l_smart_candle_new w w' dbg trades b f : w <= w' -> extends (w_smart_candle_new w dbg trades b f) (w_smart_candle_new w' dbg trades b f).
Proof. intros Hw; unfold w_smart_candle_new; lall. Qed.
#[local] Hint Resolve l_smart_candle_new : exts.

Lemma l_build_update w w' dbg r : w <= w' -> extends (w_build_update w dbg r) (w_build_update w' dbg r).
Proof. intros Hw; unfold w_build_update; lall. Qed.
#[local] Hint Resolve l_build_update : exts.

Lemma l_tracker_add w w' t sub_limit cancelled fill_events fully sub_market filled_market buy sell : w <= w' -> extends (w_tracker_add w t sub_limit cancelled fill_events fully sub_market filled_market buy sell) (w_tracker_add w' t sub_limit cancelled fill_events fully sub_market filled_market buy sell).
Proof. intros Hw; unfold w_tracker_add; lall. Qed.
#[local] Hint Resolve l_tracker_add : exts.

Lemma l_log_limit_order_submission w w' t : w <= w' -> extends (w_log_limit_order_submission w t) (w_log_limit_order_submission w' t).
Proof. intros Hw; unfold w_log_limit_order_submission; lall. Qed.
#[local] Hint Resolve l_log_limit_order_submission : exts.

Lemma l_log_limit_order_cancellation w w' t : w <= w' -> extends (w_log_limit_order_cancellation w t) (w_log_limit_order_cancellation w' t).
Proof. intros Hw; unfold w_log_limit_order_cancellation; lall. Qed.
#[local] Hint Resolve l_log_limit_order_cancellation : exts.

Lemma l_log_limit_order_fill w w' t fully : w <= w' -> extends (w_log_limit_order_fill w t fully) (w_log_limit_order_fill w' t fully).
Proof. intros Hw; unfold w_log_limit_order_fill; lall. Qed.
#[local] Hint Resolve l_log_limit_order_fill : exts.

Lemma l_log_market_order_fill w w' t : w <= w' -> extends (w_log_market_order_fill w t) (w_log_market_order_fill w' t).
Proof. intros Hw; unfold w_log_market_order_fill; lall. Qed.
#[local] Hint Resolve l_log_market_order_fill : exts.

Lemma l_log_market_order_submission w w' t : w <= w' -> extends (w_log_market_order_submission w t) (w_log_market_order_submission w' t).
Proof. intros Hw; unfold w_log_market_order_submission; lall. Qed.
#[local] Hint Resolve l_log_market_order_submission : exts.

Lemma l_log_trade w w' c t sd price qty : w <= w' -> extends (w_log_trade w c t sd price qty) (w_log_trade w' c t sd price qty).
Proof. intros Hw; unfold w_log_trade; lall. Qed.
#[local] Hint Resolve l_log_trade : exts.

Lemma l_tracker_update w w' t m : w <= w' -> extends (w_tracker_update w t m) (w_tracker_update w' t m).
Proof. intros Hw; unfold w_tracker_update; lall. Qed.
#[local] Hint Resolve l_tracker_update : exts.

Lemma l_exchange_new w w' c t : w <= w' -> extends (w_exchange_new w c t) (w_exchange_new w' c t).
Proof. intros Hw; unfold w_exchange_new; lall. Qed.
#[local] Hint Resolve l_exchange_new : exts.

Lemma l_balances w w' e : w <= w' -> extends (w_balances w e) (w_balances w' e).
Proof. intros Hw; unfold w_balances; lall. Qed.
#[local] Hint Resolve l_balances : exts.

Lemma l_balances_sum w w' b : w <= w' -> extends (w_balances_sum w b) (w_balances_sum w' b).
Proof. intros Hw; unfold w_balances_sum; lall. Qed.
#[local] Hint Resolve l_balances_sum : exts.

Lemma l_assert_user_wallet_balance w w' acc : w <= w' -> extends (w_assert_user_wallet_balance w acc) (w_assert_user_wallet_balance w' acc).
Proof. intros Hw; unfold w_assert_user_wallet_balance; lall. Qed.
#[local] Hint Resolve l_assert_user_wallet_balance : exts.

Lemma l_computed_order_margin w w' c e : w <= w' -> extends (w_computed_order_margin w c e) (w_computed_order_margin w' c e).
Proof. intros Hw; unfold w_computed_order_margin; lall. Qed.
#[local] Hint Resolve l_computed_order_margin : exts.

Lemma l_empty_margin w w' e : w <= w' -> extends (w_empty_margin w e) (w_empty_margin w' e).
Proof. intros Hw; unfold w_empty_margin; lall. Qed.
#[local] Hint Resolve l_empty_margin : exts.

Lemma l_settle_filled_market_order w w' c e o : w <= w' -> extends (w_settle_filled_market_order w c e o) (w_settle_filled_market_order w' c e o).
Proof. intros Hw; unfold w_settle_filled_market_order; lall. Qed.
#[local] Hint Resolve l_settle_filled_market_order : exts.

Lemma l_submit_market_order w w' c e o : w <= w' -> extends (w_submit_market_order w c e o) (w_submit_market_order w' c e o).
Proof. intros Hw; unfold w_submit_market_order; lall. Qed.
#[local] Hint Resolve l_submit_market_order : exts.

Lemma l_liquidate w w' c e : w <= w' -> extends (w_liquidate w c e) (w_liquidate w' c e).
Proof. intros Hw; unfold w_liquidate; lall. Qed.
#[local] Hint Resolve l_liquidate : exts.

Lemma l_append_limit_order w w' c e o : w <= w' -> extends (w_append_limit_order w c e o) (w_append_limit_order w' c e o).
Proof. intros Hw; unfold w_append_limit_order; lall. Qed.
#[local] Hint Resolve l_append_limit_order : exts.

Lemma l_submit_limit_order w w' c e o : w <= w' -> extends (w_submit_limit_order w c e o) (w_submit_limit_order w' c e o).
Proof. intros Hw; unfold w_submit_limit_order; lall. Qed.
#[local] Hint Resolve l_submit_limit_order : exts.

Lemma l_cancel_limit_order w w' c e by_ : w <= w' -> extends (w_cancel_limit_order w c e by_) (w_cancel_limit_order w' c e by_).
Proof. intros Hw; unfold w_cancel_limit_order; destruct by_; lall. Qed.
#[local] Hint Resolve l_cancel_limit_order : exts.

Lemma l_amend_limit_order w w' c e id new_order : w <= w' -> extends (w_amend_limit_order w c e id new_order) (w_amend_limit_order w' c e id new_order).
Proof. intros Hw; unfold w_amend_limit_order; lall. Qed.
#[local] Hint Resolve l_amend_limit_order : exts.

Lemma l_fill_one w w' c u e ids o : w <= w' -> extends (w_fill_one w c u e ids o) (w_fill_one w' c u e ids o).
Proof. intros Hw; unfold w_fill_one; lall. Qed.
#[local] Hint Resolve l_fill_one : exts.

Lemma l_fill_loop w w' c u e ids todo : w <= w' -> extends (w_fill_loop w c u e ids todo) (w_fill_loop w' c u e ids todo).
Proof. intros Hw; revert c u e ids; induction todo as [|x todo IH]; intros; cbn [w_fill_loop]; [|try destruct x]; lall. Qed.
#[local] Hint Resolve l_fill_loop : exts.

Lemma l_check_active_orders w w' c e u : w <= w' -> extends (w_check_active_orders w c e u) (w_check_active_orders w' c e u).
Proof. intros Hw; unfold w_check_active_orders; lall. Qed.
#[local] Hint Resolve l_check_active_orders : exts.

Lemma l_update_state w w' c e u : w <= w' -> extends (w_update_state w c e u) (w_update_state w' c e u).
Proof. intros Hw; unfold w_update_state; lall. Qed.
#[local] Hint Resolve l_update_state : exts.

Lemma l_step w w' c e o : w <= w' -> extends (w_step w c e o) (w_step w' c e o).
Proof. intros Hw; unfold w_step; lall. Qed.
#[local] Hint Resolve l_step : exts.

Lemma l_run w w' c e ops : w <= w' -> extends (w_run w c e ops) (w_run w' c e ops).
Proof. intros Hw; revert c e; induction ops as [|x ops IH]; intros; cbn [w_run]; [|try destruct x]; lall. Qed.
#[local] Hint Resolve l_run : exts.

Lemma l_init w w' c : w <= w' -> extends (w_init w c) (w_init w' c).
Proof. intros Hw; unfold w_init; lall. Qed.
#[local] Hint Resolve l_init : exts.
