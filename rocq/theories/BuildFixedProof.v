(** On machine integers too, what a debug build survives a release build does as well. *)
From Verif Require Import Base Types Filters Accounting Currency Position OrderBook OrderMargin
  Risk MarketUpdate Tracker Exchange Width Fixed SpecBuild SpecFixed.

(** If [m] returns, [m'] returns the same. *)
Definition calm {A} (m m' : checked A) : Prop := forall a, m = Fine (Done a) -> m' = Fine (Done a).
Lemma c_refl {A} (m : checked A) : calm m m.
Proof. intros a H; exact H. Qed.
Lemma c_bind {A B} (m m' : checked A) (k k' : A -> checked B) :
  calm m m' -> (forall a, calm (k a) (k' a)) -> calm (cbind m k) (cbind m' k').
Proof.
  intros H1 H2 b H. destruct m as [[a|p]|]; cbn [cbind] in H; try discriminate.
  rewrite (H1 a eq_refl). cbn [cbind]. apply H2, H.
Qed.
Lemma c_debug d b p : calm (Fine (debug_assert d b p)) (Fine (debug_assert false b p)).
Proof. intros [] H. reflexivity. Qed.
Lemma c_debug_m d b b' p : calm (cdebug_assert_m d b p) (cdebug_assert_m false b' p).
Proof. intros [] H. reflexivity. Qed.

Create HintDb calms.
#[local] Hint Resolve c_refl c_debug c_debug_m : calms.
Ltac cgo :=
  match goal with
  | |- calm ?m ?m => apply c_refl
  | |- calm (cbind _ _) (cbind _ _) => apply c_bind; [|intros ?]
  | |- calm (match ?x with _ => _ end) (match ?x with _ => _ end) => destruct x
  | |- _ => solve [eauto 3 with calms]
  end.
Ltac call := cbv zeta; cbn [release c_kind c_scale c_dbg c_start c_max c_spec c_sample_s]; repeat cgo.

Lemma c_transfer w d acc a b n : calm (w_transfer w d acc a b n) (w_transfer w false acc a b n).
Proof. unfold w_transfer, w_accounting_equation. call. Qed.
#[local] Hint Resolve c_transfer : calms.
Lemma c_inner_new w c acc q p f : calm (w_inner_new w c acc q p f) (w_inner_new w (release c) acc q p f).
Proof. unfold w_inner_new. call. Qed.
Lemma c_increase w c i acc q p f : calm (w_increase_contracts w c i acc q p f) (w_increase_contracts w (release c) i acc q p f).
Proof. unfold w_increase_contracts. call. Qed.
Lemma c_decrease w c i acc q p b f : calm (w_decrease_contracts w c i acc q p b f) (w_decrease_contracts w (release c) i acc q p b f).
Proof. unfold w_decrease_contracts. call. Qed.
#[local] Hint Resolve c_inner_new c_increase c_decrease : calms.
Lemma c_change w c pos acc q p sd f : calm (w_change_position w c pos acc q p sd f) (w_change_position w (release c) pos acc q p sd f).
Proof. unfold w_change_position, w_no_position_margin. call. Qed.
Lemma c_om w c b pos o : calm (w_order_margin_internal w c b pos o) (w_order_margin_internal w (release c) b pos o).
Proof. unfold w_order_margin_internal. call. Qed.
#[local] Hint Resolve c_change c_om : calms.
Lemma c_computed w c e : calm (w_computed_order_margin w c e) (w_computed_order_margin w (release c) e).
Proof. apply c_om. Qed.
Lemma c_check_limit w c pos o wl b : calm (w_check_limit_order w c pos o wl b) (w_check_limit_order w (release c) pos o wl b).
Proof. unfold w_check_limit_order, w_order_margin, w_order_margin_with_order. call. Qed.
Lemma c_log_trade w c t sd p q : calm (w_log_trade w c t sd p q) (w_log_trade w (release c) t sd p q).
Proof. apply c_refl. Qed.
Lemma c_check_market w c pos pm sd q p wl :
  calm (w_check_market_order w c pos pm sd q p wl) (w_check_market_order w (release c) pos pm sd q p wl).
Proof. apply c_refl. Qed.
Lemma c_check_mm w c b a pos : calm (w_check_maintenance_margin w c b a pos) (w_check_maintenance_margin w (release c) b a pos).
Proof. apply c_refl. Qed.
#[local] Hint Resolve c_computed c_check_limit c_log_trade c_check_market c_check_mm : calms.
Lemma c_settle w c e o : calm (w_settle_filled_market_order w c e o) (w_settle_filled_market_order w (release c) e o).
Proof. unfold w_settle_filled_market_order. call. Qed.
#[local] Hint Resolve c_settle : calms.
Lemma c_market w c e o : calm (w_submit_market_order w c e o) (w_submit_market_order w (release c) e o).
Proof. unfold w_submit_market_order. call. Qed.
#[local] Hint Resolve c_market : calms.
Lemma c_liquidate w c e : calm (w_liquidate w c e) (w_liquidate w (release c) e).
Proof. unfold w_liquidate. call. Qed.
Lemma c_append w c e o : calm (w_append_limit_order w c e o) (w_append_limit_order w (release c) e o).
Proof. unfold w_append_limit_order. call. Qed.
#[local] Hint Resolve c_liquidate c_append : calms.
Lemma c_submit w c e o : calm (w_submit_limit_order w c e o) (w_submit_limit_order w (release c) e o).
Proof. unfold w_submit_limit_order. call. Qed.
Lemma c_cancel w c e b : calm (w_cancel_limit_order w c e b) (w_cancel_limit_order w (release c) e b).
Proof. unfold w_cancel_limit_order. call. Qed.
#[local] Hint Resolve c_submit c_cancel : calms.
Lemma c_amend w c e i o : calm (w_amend_limit_order w c e i o) (w_amend_limit_order w (release c) e i o).
Proof. unfold w_amend_limit_order. call. Qed.
Lemma c_filled d u o : calm (Fine (limit_order_filled d u o)) (Fine (limit_order_filled false u o)).
Proof.
  destruct u as [b|t|k|s]; cbn [limit_order_filled]; try apply c_refl; unfold trade_fills, candle_fills; intros a H;
    destruct d; try exact H; [destruct (0 <? tr_qty t), (0 <? lo_rem o) | destruct (0 <? lo_rem o)]; first [discriminate H | exact H].
Qed.
#[local] Hint Resolve c_amend c_filled : calms.
Lemma c_fill_one w c u e ids o : calm (w_fill_one w c u e ids o) (w_fill_one w (release c) u e ids o).
Proof. unfold w_fill_one. call. Qed.
#[local] Hint Resolve c_fill_one : calms.
Lemma c_fill_loop w c u : forall l e ids, calm (w_fill_loop w c u e ids l) (w_fill_loop w (release c) u e ids l).
Proof. induction l as [|o l IH]; intros e ids; cbn [w_fill_loop]; call. Qed.
#[local] Hint Resolve c_fill_loop : calms.
Lemma c_check w c e u : calm (w_check_active_orders w c e u) (w_check_active_orders w (release c) e u).
Proof. unfold w_check_active_orders. call. Qed.
Lemma c_msu w d f u m : calm (w_market_update_state w d f u m) (w_market_update_state w false f u m).
Proof. unfold w_market_update_state. call. Qed.
#[local] Hint Resolve c_check c_msu : calms.
Lemma c_update w c e u : calm (w_update_state w c e u) (w_update_state w (release c) e u).
Proof. unfold w_update_state. call. Qed.
Lemma c_build w d r : calm (w_build_update w d r) (w_build_update w false r).
Proof. unfold w_build_update, w_smart_candle_new. call. Qed.
#[local] Hint Resolve c_update c_build : calms.
Lemma c_map {S E A B} (f : A -> B) (m m' : checked (S * result E A)) : calm m m' -> calm (w_map_out f m) (w_map_out f m').
Proof. intros. unfold w_map_out. apply c_bind; [assumption | intros [s r]; apply c_refl]. Qed.
Lemma c_step w c e o : calm (w_step w c e o) (w_step w (release c) e o).
Proof.
  unfold w_step; destruct o.
  - apply c_bind; [apply c_build | intros u; apply c_map, c_update].
  - destruct (market_new _ _ _); [apply c_map, c_market | apply c_refl].
  - destruct (limit_new _ _ _ _); [apply c_map, c_submit | apply c_refl].
  - apply c_map, c_cancel.
  - destruct (limit_new _ _ _ _); [apply c_map, c_amend | apply c_refl].
  - apply c_bind; [apply c_build | intros u; apply c_bind; [apply c_check | intros e1; apply c_refl]].
Qed.
#[local] Hint Resolve c_step : calms.
Lemma c_run w c : forall ops e, calm (w_run w c e ops) (w_run w (release c) e ops).
Proof. induction ops as [|o ops IH]; intros e; cbn [w_run]; [apply c_refl|].
  apply c_bind; [apply c_step|]. intros [e1 r]. apply c_bind; [apply IH|]. intros [e2 rs]. apply c_refl.
Qed.
Lemma c_init w c : calm (w_init w c) (w_init w (release c)).
Proof. unfold w_init, w_exchange_new, w_accounting_new, w_accounting_equation. call. Qed.

Lemma release_follows w c ops x : w_play w c ops = Fine (Done x) -> w_play w (release c) ops = Fine (Done x).
Proof. apply c_bind; [apply c_init | intros e0; apply c_run]. Qed.
