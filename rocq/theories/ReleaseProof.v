(** A build without overflow checks does what the checked exchange does, as long as that one does not overflow; likewise
    for the exchange whose ledger totals wrap around. *)
From Verif Require Import Base Types Filters Accounting Currency Position OrderBook OrderMargin
  Risk MarketUpdate Tracker Exchange Width Fixed Wrapped Spec SpecWrapped WrapProof Release.

Definition follows {A} (m n : checked A) : Prop := m = Overflow \/ n = m.

Lemma f_refl {A} (m : checked A) : follows m m.
Proof. right; reflexivity. Qed.

Lemma f_bind {A B} (m n : checked A) (k l : A -> checked B) :
  follows m n -> (forall a, follows (k a) (l a)) -> follows (cbind m k) (cbind n l).
Proof.
  intros [->| ->] H; [left; reflexivity|].
  destruct m as [[a|p]|]; cbn; [apply H | right; reflexivity | left; reflexivity].
Qed.

(** A check the release build does not make. *)
Lemma f_skip {A B} (m : checked A) (k : A -> checked B) n : (forall a, m = Fine (Done a) -> follows (k a) n) ->
  (forall p, m <> Fine (Panic p)) -> follows (cbind m k) n.
Proof.
  intros H N. destruct m as [[a|p]|]; cbn; [apply H; reflexivity | destruct (N p); reflexivity | left; reflexivity].
Qed.

Lemma f_debug_assert dbg m n p : follows m n -> follows (cdebug_assert_m dbg m p) (cdebug_assert_m dbg n p).
Proof.
  intros H; unfold cdebug_assert_m; destruct dbg; [|apply f_refl].
  apply f_bind; [assumption | intros v; apply f_refl].
Qed.

Lemma f_and_then {E A B} (m n : checked (result E A)) (k l : checked (result E B)) :
  follows m n -> follows k l -> follows (w_and_then m k) (w_and_then n l).
Proof. intros; unfold w_and_then; apply f_bind; [assumption|]; intros []; [assumption | apply f_refl]. Qed.

Lemma f_map_out {S E A B} (f : A -> B) (m n : checked (S * result E A)) :
  follows m n -> follows (w_map_out f m) (w_map_out f n).
Proof. intros; unfold w_map_out; apply f_bind; [assumption|]; intros [s r]; apply f_refl. Qed.

Create HintDb foll.
#[local] Hint Resolve f_refl : foll.

Ltac fgo :=
  match goal with
  | |- follows (cbind _ _) (cbind _ _) => apply f_bind; [solve [eauto 2 with foll] | intros ?]
  | |- follows (let '(_, _) := ?x in _) _ => destruct x
  | |- follows (match ?x with _ => _ end) (match ?x with _ => _ end) => destruct x
  | |- follows (if ?x then _ else _) (if ?x then _ else _) => destruct x
  | |- follows (cdebug_assert_m _ _ _) (cdebug_assert_m _ _ _) => apply f_debug_assert
  | |- follows (w_map_out _ _) (w_map_out _ _) => apply f_map_out
  | |- _ => solve [eauto 2 with foll]
  end.
Ltac fall := repeat fgo.

Lemma chk_no_panic w z p : chk w z <> Fine (Panic p).
Proof. unfold chk; destruct (fits w z); discriminate. Qed.
Lemma count_no_panic z p : count z <> Fine (Panic p).
Proof. unfold count; destruct (fits_unsigned 64 z); discriminate. Qed.
Lemma chk_inv w z a : chk w z = Fine (Done a) -> a = z /\ fits w z = true.
Proof. unfold chk; destruct (fits w z); intros H; [injection H as <-; auto | discriminate]. Qed.
Lemma count_inv z a : count z = Fine (Done a) -> a = z /\ z mod 2 ^ 64 = z.
Proof.
  unfold count; destruct (fits_unsigned 64 z) eqn:E; intros H; [|discriminate]. injection H as <-. split; [reflexivity|].
  unfold fits_unsigned in E. apply andb_prop in E as [A B]. apply Z.mod_small. lia.
Qed.

Section Release.
Variable w : Z.
Hypothesis Hw : 0 < w.

Lemma f_chk u z : 0 < u -> follows (chk u z) (ret (wrap u z)).
Proof. intros Hu. unfold chk. destruct (fits u z) eqn:E; [right; rewrite (wrap_id u Hu) by exact E | left]; reflexivity. Qed.
Lemma f_count z : follows (count z) (rcount z).
Proof.
  destruct (count z) as [[a|p]|] eqn:E; [|destruct (count_no_panic _ _ E)|left; reflexivity].
  apply count_inv in E as [-> E]. right. unfold rcount. rewrite E. reflexivity.
Qed.
Lemma f_add a b : follows (cadd w a b) (radd w a b).
Proof. apply f_chk, Hw. Qed.
Lemma f_sub a b : follows (csub w a b) (rsub w a b).
Proof. apply f_chk, Hw. Qed.
Lemma f_neg a : follows (cneg w a) (rneg w a).
Proof. apply f_chk, Hw. Qed.
Lemma f_abs a : follows (cabs w a) (rabs w a).
Proof. apply f_chk, Hw. Qed.
#[local] Hint Resolve f_count f_add f_sub f_neg f_abs : foll.

(** ** Currencies *)
Lemma f_convert k s u p : follows (w_convert_from w k s u p) (rb_convert_from w k s u p).
Proof. apply f_refl. Qed.
#[local] Hint Resolve f_convert : foll.
Lemma f_pnl k s a b q : follows (w_pnl w k s a b q) (rb_pnl w k s a b q).
Proof. unfold w_pnl, rb_pnl; fall. Qed.
Lemma f_liq_long s p mm : follows (w_liquidation_price_long w s p mm) (rb_liquidation_price_long w s p mm).
Proof. unfold w_liquidation_price_long, rb_liquidation_price_long; fall. Qed.
Lemma f_liq_short s p mm : follows (w_liquidation_price_short w s p mm) (rb_liquidation_price_short w s p mm).
Proof. unfold w_liquidation_price_short, rb_liquidation_price_short; fall. Qed.
Lemma f_weighted s a b c d : follows (w_new_weighted_price w s a b c d) (rb_new_weighted_price w s a b c d).
Proof. unfold w_new_weighted_price, rb_new_weighted_price; fall. Qed.
#[local] Hint Resolve f_pnl f_liq_long f_liq_short f_weighted : foll.

(** ** The checked ledger *)
Lemma f_balance acc id : follows (w_margin_balance_of w acc id) (rb_margin_balance_of w acc id).
Proof. apply f_sub. Qed.
Lemma f_sum l : forall a, follows (w_sum w a l) (rb_sum w a l).
Proof. induction l as [|x l IH]; intros a; cbn [w_sum rb_sum]; fall. Qed.
#[local] Hint Resolve f_balance f_sum : foll.
Lemma f_equation dbg a : follows (w_accounting_equation w dbg a) (rb_accounting_equation w dbg a).
Proof. unfold w_accounting_equation, rb_accounting_equation; fall. Qed.
#[local] Hint Resolve f_equation : foll.
Lemma f_accounting_new dbg z : follows (w_accounting_new w dbg z) (rb_accounting_new w dbg z).
Proof. unfold w_accounting_new, rb_accounting_new; cbv zeta; fall. Qed.
Lemma f_transfer dbg a d c amt : follows (w_transfer w dbg a d c amt) (rb_transfer w dbg a d c amt).
Proof. unfold w_transfer, rb_transfer; cbv zeta; fall. Qed.

(** ** The wrapping ledger *)
Lemma f_v_balance acc id : follows (ret (v_balance w acc id)) (rb_margin_balance_of w acc id).
Proof. apply f_refl. Qed.
Lemma f_v_new z : follows (v_accounting_new w z) (rb_accounting_new w false z).
Proof.
  unfold v_accounting_new, rb_accounting_new; cbv zeta. fgo. fgo.
  apply f_skip; [|intros p; apply chk_no_panic]. intros x _. apply f_refl.
Qed.
Lemma f_v_transfer a d c amt : follows (v_transfer w a d c amt) (rb_transfer w false a d c amt).
Proof.
  unfold v_transfer, rb_transfer; cbv zeta. fgo.
  apply f_skip; [|intros p; apply chk_no_panic]. intros x _.
  apply f_skip; [|intros p; apply chk_no_panic]. intros y _. apply f_refl.
Qed.

(** ** Filters *)
Lemma f_limit_price s f limit mark : follows (w_validate_limit_price w s f limit mark) (rb_validate_limit_price w s f limit mark).
Proof. unfold w_validate_limit_price, rb_validate_limit_price; cbv zeta. do 3 fgo; try apply f_refl; fall. Qed.
Lemma f_step_size st price : follows (w_enforce_step_size w st price) (rb_enforce_step_size w st price).
Proof. apply f_refl. Qed.
Lemma f_quantity f q : follows (w_validate_order_quantity w f q) (rb_validate_order_quantity w f q).
Proof. unfold w_validate_order_quantity, rb_validate_order_quantity; cbv zeta. do 3 fgo; try apply f_refl; fall. Qed.
#[local] Hint Resolve f_limit_price f_step_size f_quantity : foll.

(** ** Limit orders *)
Lemma f_total o : follows (w_lo_total_quantity w o) (rb_lo_total_quantity w o).
Proof.
  unfold w_lo_total_quantity, rb_lo_total_quantity. apply f_bind; [destruct (lo_filled o); fall | intros ?; fall].
Qed.
Lemma f_order_fill s o q ts : follows (w_order_fill w s o q ts) (rb_order_fill w s o q ts).
Proof. unfold w_order_fill, rb_order_fill; cbv zeta; fall. Qed.
#[local] Hint Resolve f_total f_order_fill : foll.

(** ** Order margin *)
Lemma sort_ext {A} (f g : A -> Z) l : (forall x, In x l -> f x = g x) -> sort_by_key f l = sort_by_key g l.
Proof.
  intros H. induction l as [|x l IH]; [reflexivity|]. cbn [sort_by_key]. rewrite IH by (intros; apply H; right; assumption).
  assert (K : forall m, (forall y, In y m -> In y l) -> insert_by f x m = insert_by g x m).
  { clear IH. induction m as [|y m IH]; intros Hm; [reflexivity|]. cbn [insert_by].
    rewrite (H x) by (left; reflexivity). rewrite (H y) by (right; apply Hm; left; reflexivity).
    rewrite IH by (intros; apply Hm; right; assumption). reflexivity. }
  apply K. intros y Hy.
  assert (P : forall m, (forall z, In z (sort_by_key g m) -> In z m)).
  { induction m as [|u m IHm]; cbn [sort_by_key]; [auto|]. intros z Hz.
    assert (Q : forall r, In z (insert_by g u r) -> z = u \/ In z r).
    { induction r as [|v r IHr]; cbn [insert_by]; [intros [<-|[]]; auto|].
      destruct (_ <=? _); cbn; intros [<-|T]; auto. destruct (IHr T); auto. }
    destruct (Q _ Hz) as [->|T]; [left; reflexivity | right; apply IHm, T]. }
  apply P, Hy.
Qed.
Lemma neg_all_inv l a : w_neg_all w l = Fine (Done a) -> forall x, In x l -> - fst x = rb_key w x.
Proof.
  induction l as [|y l IH]; cbn [w_neg_all]; [intros _ x []|].
  unfold cneg, rb_key. destruct (chk w (- fst y)) as [[z|p]|] eqn:E; cbn [cbind]; try discriminate.
  apply chk_inv in E as [_ E]. intros H x [->|Hx]; [symmetry; apply (wrap_id w Hw), E | apply IH; assumption].
Qed.
Lemma keys_inv l a : w_sort_keys w l = Fine (Done a) -> sort_by_key (fun x => - fst x) l = sort_by_key (rb_key w) l.
Proof.
  unfold w_sort_keys. destruct l as [|x [|y l]]; intros H; [reflexivity | reflexivity|].
  apply sort_ext. apply (neg_all_inv _ _ H).
Qed.
Lemma neg_all_no_panic l p : w_neg_all w l <> Fine (Panic p).
Proof.
  induction l as [|y l IH]; cbn [w_neg_all]; [discriminate|]. unfold cneg, chk.
  destruct (fits w _); cbn [cbind]; [exact IH | discriminate].
Qed.
Lemma keys_no_panic l p : w_sort_keys w l <> Fine (Panic p).
Proof. unfold w_sort_keys. destruct l as [|x [|y l]]; [discriminate | discriminate | apply neg_all_no_panic]. Qed.

Lemma f_offset l : forall o, follows (w_offset_orders w o l) (rb_offset_orders w o l).
Proof.
  induction l as [|[p q] l IH]; intros o; cbn [w_offset_orders rb_offset_orders]; [apply f_refl|].
  destruct (0 <? o); [|apply f_refl]. fgo. fgo. apply f_bind; [apply IH | intros ?; apply f_refl].
Qed.
Lemma f_value k s l : forall sum, follows (w_orders_value w k s sum l) (rb_orders_value w k s sum l).
Proof.
  induction l as [|[p q] l IH]; intros sum; cbn [w_orders_value rb_orders_value]; [apply f_refl|].
  fgo. fgo. apply IH.
Qed.
#[local] Hint Resolve f_offset f_value : foll.
Lemma f_om_internal c book pos o : follows (w_order_margin_internal w c book pos o) (rb_order_margin_internal w c book pos o).
Proof.
  unfold w_order_margin_internal, rb_order_margin_internal; cbv zeta. fgo.
  apply f_skip; [|apply keys_no_panic]. intros x Hx. rewrite (keys_inv _ _ Hx).
  apply f_bind; [destruct pos; eauto 2 with foll|]; intros ?. apply f_bind; [destruct pos; eauto 2 with foll|]; intros ?. fall.
Qed.
Lemma f_om c book pos : follows (w_order_margin w c book pos) (rb_order_margin w c book pos).
Proof. apply f_om_internal. Qed.
Lemma f_om_with c book pos o : follows (w_order_margin_with_order w c book pos o) (rb_order_margin_with_order w c book pos o).
Proof. apply f_om_internal. Qed.
#[local] Hint Resolve f_om f_om_with : foll.

(** ** Risk engine *)
Lemma f_open c q p wal : follows (w_check_market_open w c q p wal) (rb_check_market_open w c q p wal).
Proof. unfold w_check_market_open, rb_check_market_open; cbv zeta; fall. Qed.
Lemma f_reduce c i pm q p wal : follows (w_check_market_reduce w c i pm q p wal) (rb_check_market_reduce w c i pm q p wal).
Proof. unfold w_check_market_reduce, rb_check_market_reduce; cbv zeta; fall. Qed.
#[local] Hint Resolve f_open f_reduce : foll.
Lemma f_market c pos pm sd q p wal : follows (w_check_market_order w c pos pm sd q p wal) (rb_check_market_order w c pos pm sd q p wal).
Proof. unfold w_check_market_order, rb_check_market_order; fall. Qed.
Lemma f_limit c pos o wal book : follows (w_check_limit_order w c pos o wal book) (rb_check_limit_order w c pos o wal book).
Proof. unfold w_check_limit_order, rb_check_limit_order; fall. Qed.
Lemma f_mm c bid ask pos : follows (w_check_maintenance_margin w c bid ask pos) (rb_check_maintenance_margin w c bid ask pos).
Proof. unfold w_check_maintenance_margin, rb_check_maintenance_margin; cbv zeta; destruct pos; fall. Qed.
#[local] Hint Resolve f_market f_limit f_mm : foll.

(** ** Market updates *)
Lemma f_mid m : follows (w_mid_price w m) (rb_mid_price w m).
Proof. unfold w_mid_price, rb_mid_price; fall. Qed.
#[local] Hint Resolve f_mid : foll.
Lemma f_validate f u : follows (w_validate_market_update w f u) (rb_validate_market_update w f u).
Proof. apply f_refl. Qed.
#[local] Hint Resolve f_validate : foll.
Lemma f_market_update dbg f u m : follows (w_market_update_state w dbg f u m) (rb_market_update_state w dbg f u m).
Proof. unfold w_market_update_state, rb_market_update_state; cbv zeta. apply f_bind; [apply f_refl | intros _]. fall. Qed.
Lemma f_aggregate_loop l : forall lst sum, follows (w_aggregate_loop w lst sum l) (rb_aggregate_loop w lst sum l).
Proof.
  induction l as [|[p q] l IH]; intros lst sum; cbn [w_aggregate_loop rb_aggregate_loop]; [apply f_refl|].
  fgo. destruct (p =? lst); [apply IH|]. apply f_bind; [apply IH | intros ?; apply f_refl].
Qed.
Lemma f_aggregate l : follows (w_aggregate w l) (rb_aggregate w l).
Proof. unfold w_aggregate, rb_aggregate; destruct l as [|[p q] l]; [apply f_refl | apply f_aggregate_loop]. Qed.
#[local] Hint Resolve f_market_update f_aggregate : foll.
Lemma f_smart dbg ts b f : follows (w_smart_candle_new w dbg ts b f) (rb_smart_candle_new w dbg ts b f).
Proof.
  unfold w_smart_candle_new, rb_smart_candle_new; cbv zeta; destruct ts as [|t0 ts]; [apply f_refl|].
  apply f_bind; [apply f_refl | intros _]. apply f_bind; [apply f_refl | intros ?]. fgo. fgo.
  apply f_skip; [|apply keys_no_panic]. intros x Hx. rewrite (keys_inv _ _ Hx). fall.
Qed.
#[local] Hint Resolve f_smart : foll.
Lemma f_build dbg r : follows (w_build_update w dbg r) (rb_build_update w dbg r).
Proof. unfold w_build_update, rb_build_update; destruct r; fall. Qed.

(** ** Tracker *)
Lemma f_tracker_add t a b c d e f g h : follows (w_tracker_add w t a b c d e f g h) (rb_tracker_add w t a b c d e f g h).
Proof.
  unfold w_tracker_add, rb_tracker_add, wrap_counts.
  do 6 (apply f_skip; [|intros p; apply count_no_panic]; intros ? [_ ?]%count_inv).
  do 2 (apply f_skip; [|intros p; apply chk_no_panic]; intros ? [_ ?]%chk_inv).
  unfold tracker_add; cbn [tk_start tk_sub_limit tk_cancelled tk_fill_events tk_fully_filled tk_sub_market tk_filled_market tk_buy_volume
    tk_sell_volume tk_price_first tk_price_last tk_ts_first tk_ts_last tk_last_balance_sum tk_samples].
  right. rewrite ?(wrap_id w Hw) by assumption. repeat match goal with H : _ mod _ = _ |- _ => rewrite H; clear H end. reflexivity.
Qed.
Lemma f_log_submission t : follows (w_log_limit_order_submission w t) (rb_log_limit_order_submission w t).
Proof. apply f_tracker_add. Qed.
Lemma f_log_cancellation t : follows (w_log_limit_order_cancellation w t) (rb_log_limit_order_cancellation w t).
Proof. apply f_tracker_add. Qed.
Lemma f_log_fill t b : follows (w_log_limit_order_fill w t b) (rb_log_limit_order_fill w t b).
Proof. apply f_tracker_add. Qed.
Lemma f_log_mfill t : follows (w_log_market_order_fill w t) (rb_log_market_order_fill w t).
Proof. apply f_tracker_add. Qed.
Lemma f_log_msub t : follows (w_log_market_order_submission w t) (rb_log_market_order_submission w t).
Proof. apply f_tracker_add. Qed.
#[local] Hint Resolve f_build f_tracker_add f_log_submission f_log_cancellation f_log_fill f_log_mfill f_log_msub : foll.
Lemma f_log_trade c t sd p q : follows (w_log_trade w c t sd p q) (rb_log_trade w c t sd p q).
Proof. unfold w_log_trade, rb_log_trade; fgo; fgo; destruct sd; fall. Qed.
Lemma mid_inv m a : w_mid_price w m = Fine (Done a) -> a = mid_price m.
Proof.
  unfold w_mid_price, cadd, mid_price. destruct (chk w (ms_bid m + ms_ask m)) as [[z|p]|] eqn:E; cbn [cbind]; try discriminate.
  apply chk_inv in E as [-> _]. intros H. apply chk_inv in H as [-> _]. reflexivity.
Qed.
Lemma f_tracker_update t m : follows (w_tracker_update w t m) (rb_tracker_update w t m).
Proof.
  unfold w_tracker_update, rb_tracker_update. destruct (f_mid m) as [E|E]; rewrite E; [left; reflexivity|].
  destruct (w_mid_price w m) as [[z|p]|] eqn:F; cbn [cbind]; [|apply f_refl|apply f_refl].
  apply mid_inv in F as ->. apply f_refl.
Qed.
Lemma f_trigger t ts : follows (w_should_trigger t ts) (rb_should_trigger t ts).
Proof.
  unfold w_should_trigger, rb_should_trigger, should_trigger. destruct (tg_init t); [apply f_refl|].
  apply f_skip; [|intros p; apply chk_no_panic]. intros a [-> H]%chk_inv.
  unfold radd. rewrite (wrap_id 64) by (reflexivity || exact H). cbn [cbind ret]. destruct (_ <=? _); apply f_refl.
Qed.
#[local] Hint Resolve f_log_trade f_tracker_update f_trigger : foll.

(** ** Exchange, over any ledger that the one of the release build follows *)
Variable c : config.
Variable L : Wrapped.ledger.
Hypothesis HN : forall z, follows (l_new L z) (rb_accounting_new w (c_dbg c) z).
Hypothesis HT : forall a d b amt, follows (l_transfer L a d b amt) (rb_transfer w (c_dbg c) a d b amt).
Hypothesis HB : forall a id, follows (l_balance L a id) (rb_margin_balance_of w a id).
#[local] Hint Resolve HN HT HB : foll.

Lemma f_inner_new acc q p f : follows (g_inner_new L w c acc q p f) (rb_inner_new w c acc q p f).
Proof. unfold g_inner_new, rb_inner_new; cbv zeta; fall. Qed.
Lemma f_increase i acc q p f : follows (g_increase_contracts L w c i acc q p f) (rb_increase_contracts w c i acc q p f).
Proof. unfold g_increase_contracts, rb_increase_contracts; cbv zeta; fall. Qed.
Lemma f_decrease i acc q p l f : follows (g_decrease_contracts L w c i acc q p l f) (rb_decrease_contracts w c i acc q p l f).
Proof.
  unfold g_decrease_contracts, rb_decrease_contracts; cbv zeta. do 5 fgo.
  apply f_bind; [destruct l; eauto 2 with foll|]. intros sg. fgo.
  apply f_bind. { destruct (_ ?= 0); fall. } intros acc1; fall.
Qed.
Lemma f_no_margin acc p : follows (g_no_position_margin L (c_dbg c) acc p) (rb_no_position_margin w (c_dbg c) acc p).
Proof. unfold g_no_position_margin, rb_no_position_margin; fall. Qed.
#[local] Hint Resolve f_inner_new f_increase f_decrease f_no_margin : foll.
Lemma f_change pos acc q p sd f : follows (g_change_position L w c pos acc q p sd f) (rb_change_position w c pos acc q p sd f).
Proof. unfold g_change_position, rb_change_position; cbv zeta; fall. Qed.
#[local] Hint Resolve f_change : foll.

Lemma f_exchange_new t : follows (g_exchange_new L c t) (rb_exchange_new w c t).
Proof.
  unfold g_exchange_new, rb_exchange_new. fgo. apply f_bind; [apply f_chk; reflexivity | intros ?; apply f_refl].
Qed.
Lemma f_balances e : follows (g_balances L e) (rb_balances w e).
Proof. unfold g_balances, rb_balances; fall. Qed.
Lemma f_balances_sum b : follows (w_balances_sum w b) (rb_balances_sum w b).
Proof. unfold w_balances_sum, rb_balances_sum; fall. Qed.
Lemma f_wallet acc : follows (g_assert_user_wallet_balance L acc) (rb_assert_user_wallet_balance w acc).
Proof. unfold g_assert_user_wallet_balance, rb_assert_user_wallet_balance; fall. Qed.
Lemma f_computed e : follows (w_computed_order_margin w c e) (rb_computed_order_margin w c e).
Proof. apply f_om. Qed.
Lemma f_empty e : follows (g_empty_margin L e) (rb_empty_margin w e).
Proof. unfold g_empty_margin, rb_empty_margin; destruct (ex_active e); fall. Qed.
#[local] Hint Resolve f_exchange_new f_balances f_balances_sum f_wallet f_computed f_empty : foll.
Lemma f_settle e o : follows (g_settle_filled_market_order L w c e o) (rb_settle_filled_market_order w c e o).
Proof. unfold g_settle_filled_market_order, rb_settle_filled_market_order; cbv zeta; fall. Qed.
#[local] Hint Resolve f_settle : foll.
Lemma f_submit_market e o : follows (g_submit_market_order L w c e o) (rb_submit_market_order w c e o).
Proof. unfold g_submit_market_order, rb_submit_market_order; cbv zeta; fall. Qed.
#[local] Hint Resolve f_submit_market : foll.
Lemma f_liquidate e : follows (g_liquidate L w c e) (rb_liquidate w c e).
Proof. unfold g_liquidate, rb_liquidate; fall. Qed.
Lemma f_append e o : follows (g_append_limit_order L w c e o) (rb_append_limit_order w c e o).
Proof.
  unfold g_append_limit_order, rb_append_limit_order; cbv zeta.
  fgo. fgo. fgo; [|apply f_refl]. fgo. fgo; [|apply f_refl].
  fgo. fgo. destruct (_ ?= _); [apply f_refl | | ]; fall.
Qed.
#[local] Hint Resolve f_liquidate f_append : foll.
Lemma f_submit_limit e o : follows (g_submit_limit_order L w c e o) (rb_submit_limit_order w c e o).
Proof. unfold g_submit_limit_order, rb_submit_limit_order; cbv zeta; fall. Qed.
Lemma f_cancel e b : follows (g_cancel_limit_order L w c e b) (rb_cancel_limit_order w c e b).
Proof.
  unfold g_cancel_limit_order, rb_cancel_limit_order; cbv zeta. fgo. fgo. fgo.
  destruct b as [id|uid].
  - destruct (remove_by_order_id (ex_active e) id) as [[removed act']|]; [|apply f_refl]. fgo. fgo. fgo.
    apply f_bind; [destruct (_ <? _); fall|]. intros e3; fall.
  - destruct (remove_by_user_order_id (ex_active e) uid) as [[removed act']|]; [|apply f_refl]. fgo. fgo. fgo.
    apply f_bind; [destruct (_ <? _); fall|]. intros e3; fall.
Qed.
#[local] Hint Resolve f_submit_limit f_cancel : foll.
Lemma f_amend e id o : follows (g_amend_limit_order L w c e id o) (rb_amend_limit_order w c e id o).
Proof. unfold g_amend_limit_order, rb_amend_limit_order; cbv zeta; fall. Qed.
Lemma f_fill_one u e ids o : follows (g_fill_one L w c u e ids o) (rb_fill_one w c u e ids o).
Proof.
  unfold g_fill_one, rb_fill_one; cbv zeta.
  fgo. fgo; [|apply f_refl]. fgo. fgo.
  apply f_bind; [apply f_debug_assert; fall|]; intros _. fgo. fgo.
  apply f_bind; [fall|]. intros [e1 ids1].
  fgo. fgo. fgo. fgo. fgo. fgo. fgo.
  apply f_bind; [destruct (_ <? _); fall|]. intros e4; apply f_refl.
Qed.
#[local] Hint Resolve f_amend f_fill_one : foll.
Lemma f_fill_loop u todo : forall e ids, follows (g_fill_loop L w c u e ids todo) (rb_fill_loop w c u e ids todo).
Proof. induction todo as [|o rest IH]; intros e ids; cbn [g_fill_loop rb_fill_loop]; fall. Qed.
#[local] Hint Resolve f_fill_loop : foll.
Lemma f_check e u : follows (g_check_active_orders L w c e u) (rb_check_active_orders w c e u).
Proof.
  unfold g_check_active_orders, rb_check_active_orders; cbv zeta.
  fgo; [apply f_refl|]. fgo. fgo. fgo. fgo. fgo. fgo.
  apply f_bind; [apply f_debug_assert; fall|]; intros _.
  apply f_bind; [apply f_debug_assert; fall|]; intros _. fall.
Qed.
#[local] Hint Resolve f_check : foll.
Lemma f_update_state e u : follows (g_update_state L w c e u) (rb_update_state w c e u).
Proof.
  unfold g_update_state, rb_update_state; cbv zeta. fgo. fgo. fgo. fgo.
  apply f_bind; [match goal with |- follows (if ?x then _ else _) _ => destruct x end; fall|]. intros e4. fall.
Qed.
#[local] Hint Resolve f_update_state : foll.
Lemma f_step e o : follows (g_step L w c e o) (rb_step w c e o).
Proof. unfold g_step, rb_step; destruct o; fall. Qed.
#[local] Hint Resolve f_step : foll.
Lemma f_run ops : forall e, follows (g_run L w c e ops) (rb_run w c e ops).
Proof. induction ops as [|o ops IH]; intros e; cbn [g_run rb_run]; fall. Qed.
Lemma f_init : follows (g_init L c) (rb_init w c).
Proof. unfold g_init, rb_init; fall. Qed.
End Release.
