(** The release build does what the debug build does; the tracker does not influence trading. *)
From Verif Require Import ProofBase SpecBuild.

(** ** Release refines debug *)
Definition refines {A} (m m' : outcome A) : Prop := m = m' \/ exists p, m = Panic p /\ debug_stop p.
Lemma refines_refl {A} (m : outcome A) : refines m m.
Proof. left. reflexivity. Qed.
Lemma refines_bind {A B} (m m' : outcome A) (k k' : A -> outcome B) :
  refines m m' -> (forall a, refines (k a) (k' a)) -> refines (bind m k) (bind m' k').
Proof.
  intros [<-|(p & -> & Hp)] H2; [|right; exists p; split; [reflexivity | exact Hp]].
  destruct m as [a|p]; [apply H2 | left; reflexivity].
Qed.
Lemma refines_dbg d b p : debug_stop p -> refines (debug_assert d b p) (debug_assert false b p).
Proof. intros H. destruct d, b; cbn; try (left; reflexivity). right. exists p. split; [reflexivity | exact H]. Qed.
Definition stops {A} (m : outcome A) : Prop := forall p, m = Panic p -> debug_stop p.
Lemma refines_dbgm d b b' p : stops b -> debug_stop p -> refines (debug_assert_m d b p) (debug_assert_m false b' p).
Proof.
  intros Hb H. destruct d; cbn; [|left; reflexivity].
  destruct b as [[]|q]; cbn; [left; reflexivity | right; exists p; split; [reflexivity | exact H] | right; exists q; split; [reflexivity | apply Hb; reflexivity]].
Qed.
Lemma stops_done {A} (a : A) : stops (Done a).
Proof. intros p H. discriminate. Qed.
Lemma stops_bind {A B} (m : outcome A) (k : A -> outcome B) : stops m -> (forall a, stops (k a)) -> stops (bind m k).
Proof. intros H1 H2 p H. destruct m as [a|q]; cbn in H; [exact (H2 a p H) | injection H as ->; apply H1; reflexivity]. Qed.
Lemma stops_debug d b p : debug_stop p -> stops (debug_assert d b p).
Proof. intros Hp q H. destruct d, b; cbn in H; try discriminate. injection H as <-. exact Hp. Qed.
Lemma stops_div s a b : stops (ddiv s a b).
Proof. intros p H. unfold ddiv in H. destruct (b =? 0); [|discriminate]. injection H as <-. right. reflexivity. Qed.
Lemma stops_rem a b : stops (drem a b).
Proof. intros p H. unfold drem in H. destruct (b =? 0); [|discriminate]. injection H as <-. right. reflexivity. Qed.
Ltac site_in := first [right; reflexivity | left; cbn; tauto].
Ltac stop1 :=
  match goal with
  | |- stops (Done _) => apply stops_done
  | |- stops (bind _ _) => apply stops_bind; [|intros ?]
  | |- stops (debug_assert _ _ _) => apply stops_debug; site_in
  | |- stops (ddiv _ _ _) => apply stops_div
  | |- stops (drem _ _) => apply stops_rem
  | |- stops (match ?x with _ => _ end) => destruct x
  | |- _ => solve [eauto with stops]
  end.
Ltac stop := cbv zeta; repeat stop1.
Lemma conv_stops k s u p : stops (convert_from k s u p).
Proof. unfold convert_from. stop. Qed.
#[local] Hint Resolve conv_stops : stops.
Lemma ov_stops k s : forall l, stops (orders_value k s l).
Proof. induction l as [|[]]; cbn [orders_value]; stop. Qed.
#[local] Hint Resolve ov_stops : stops.
Lemma com_stops c e : stops (computed_order_margin c e).
Proof. unfold computed_order_margin, order_margin, order_margin_internal. stop. Qed.
#[local] Hint Resolve com_stops : stops.
Lemma step_size_stops t p : stops (enforce_step_size t p).
Proof. unfold enforce_step_size. stop. Qed.
#[local] Hint Resolve step_size_stops : stops.
Lemma and_then_stops {E A B} (r : outcome (result E A)) (k : outcome (result E B)) : stops r -> stops k -> stops (and_then r k).
Proof. intros. unfold and_then. stop. Qed.
Lemma validate_trade_stops f t : stops (validate_trade f t).
Proof. unfold validate_trade. repeat first [apply and_then_stops | stop1]. Qed.
#[local] Hint Resolve validate_trade_stops : stops.
Lemma any_valid_stops f : forall l, stops (any_valid f l).
Proof. induction l; cbn [any_valid]; stop. Qed.
#[local] Hint Resolve any_valid_stops : stops.
Lemma validate_stops f u : stops (validate_market_update f u).
Proof. unfold validate_market_update, validate_bba, validate_candle. destruct u; repeat first [apply and_then_stops | stop1]. Qed.
#[local] Hint Resolve validate_stops : stops.

Ltac ref1 :=
  match goal with
  | |- refines ?a ?a => apply refines_refl
  | |- refines (bind _ _) (bind _ _) => apply refines_bind; [|intros ?]
  | |- refines (debug_assert _ _ _) _ => apply refines_dbg; site_in
  | |- refines (debug_assert_m _ _ _) _ => apply refines_dbgm; [stop | site_in]
  | |- refines (match ?x with _ => _ end) _ => destruct x
  | |- refines (if ?x then _ else _) _ => destruct x
  | |- _ => solve [eauto with ref]
  end.
Ltac ref := cbn [release c_kind c_scale c_dbg c_start c_max c_spec c_sample_s]; cbv zeta; repeat ref1.

Lemma transfer_refines d acc a b n : refines (transfer d acc a b n) (transfer false acc a b n).
Proof. unfold transfer, create_margin_transfer, debug_assert_accounting_equation. ref. Qed.
#[local] Hint Resolve transfer_refines : ref.
Lemma inner_new_refines c acc q p f : refines (inner_new c acc q p f) (inner_new (release c) acc q p f).
Proof. unfold inner_new. ref. Qed.
#[local] Hint Resolve inner_new_refines : ref.
Lemma increase_refines c i acc q p f : refines (increase_contracts c i acc q p f) (increase_contracts (release c) i acc q p f).
Proof. unfold increase_contracts. ref. Qed.
#[local] Hint Resolve increase_refines : ref.
Lemma decrease_refines c i acc q p b f : refines (decrease_contracts c i acc q p b f) (decrease_contracts (release c) i acc q p b f).
Proof. unfold decrease_contracts. ref. Qed.
#[local] Hint Resolve decrease_refines : ref.
Lemma change_refines c pos acc q p sd f : refines (change_position c pos acc q p sd f) (change_position (release c) pos acc q p sd f).
Proof. unfold change_position. ref. Qed.
#[local] Hint Resolve change_refines : ref.
Lemma omi_refines c b pos o : refines (order_margin_internal c b pos o) (order_margin_internal (release c) b pos o).
Proof. unfold order_margin_internal. ref. Qed.
#[local] Hint Resolve omi_refines : ref.
Lemma com_refines c e : refines (computed_order_margin c e) (computed_order_margin (release c) e).
Proof. unfold computed_order_margin, order_margin. ref. Qed.
#[local] Hint Resolve com_refines : ref.
Lemma check_limit_refines c pos o w b : refines (check_limit_order c pos o w b) (check_limit_order (release c) pos o w b).
Proof. unfold check_limit_order, order_margin, order_margin_with_order. ref. Qed.
#[local] Hint Resolve check_limit_refines : ref.
Lemma log_trade_refines c t sd p q : refines (log_trade c t sd p q) (log_trade (release c) t sd p q).
Proof. exact (refines_refl _). Qed.
Lemma check_market_refines c pos pm sd q p w : refines (check_market_order c pos pm sd q p w) (check_market_order (release c) pos pm sd q p w).
Proof. exact (refines_refl _). Qed.
#[local] Hint Resolve log_trade_refines check_market_refines : ref.
Lemma settle_refines c e o : refines (settle_filled_market_order c e o) (settle_filled_market_order (release c) e o).
Proof. unfold settle_filled_market_order. ref. Qed.
#[local] Hint Resolve settle_refines : ref.
Lemma market_refines c e o : refines (submit_market_order c e o) (submit_market_order (release c) e o).
Proof. unfold submit_market_order. ref. Qed.
#[local] Hint Resolve market_refines : ref.
Lemma liquidate_refines c e : refines (liquidate c e) (liquidate (release c) e).
Proof. unfold liquidate. ref. Qed.
#[local] Hint Resolve liquidate_refines : ref.
Lemma append_refines c e o : refines (append_limit_order c e o) (append_limit_order (release c) e o).
Proof. unfold append_limit_order. ref. Qed.
#[local] Hint Resolve append_refines : ref.
Lemma submit_refines c e o : refines (submit_limit_order c e o) (submit_limit_order (release c) e o).
Proof. unfold submit_limit_order. ref. Qed.
#[local] Hint Resolve submit_refines : ref.
Lemma cancel_refines c e b : refines (cancel_limit_order c e b) (cancel_limit_order (release c) e b).
Proof. unfold cancel_limit_order. ref. Qed.
#[local] Hint Resolve cancel_refines : ref.
Lemma amend_refines c e i o : refines (amend_limit_order c e i o) (amend_limit_order (release c) e i o).
Proof. unfold amend_limit_order. ref. Qed.
#[local] Hint Resolve amend_refines : ref.
Lemma lof_refines d u o : refines (limit_order_filled d u o) (limit_order_filled false u o).
Proof. unfold limit_order_filled, trade_fills, candle_fills. ref. Qed.
#[local] Hint Resolve lof_refines : ref.
Lemma fill_one_refines c u e ids o : refines (fill_one c u e ids o) (fill_one (release c) u e ids o).
Proof. unfold fill_one. ref. Qed.
#[local] Hint Resolve fill_one_refines : ref.
Lemma fill_loop_refines c u : forall l e ids, refines (fill_loop c u e ids l) (fill_loop (release c) u e ids l).
Proof. induction l as [|o l IH]; intros; cbn [fill_loop]; ref. Qed.
#[local] Hint Resolve fill_loop_refines : ref.
Lemma check_refines c e u : refines (check_active_orders c e u) (check_active_orders (release c) e u).
Proof. unfold check_active_orders. ref. Qed.
#[local] Hint Resolve check_refines : ref.
Lemma msu_refines d f u m : refines (market_update_state d f u m) (market_update_state false f u m).
Proof. unfold market_update_state. ref. Qed.
#[local] Hint Resolve msu_refines : ref.
Lemma update_refines c e u : refines (update_state c e u) (update_state (release c) e u).
Proof. unfold update_state. change (check_maintenance_margin (release c)) with (check_maintenance_margin c). ref. Qed.
#[local] Hint Resolve update_refines : ref.
Lemma build_refines d r : refines (build_update d r) (build_update false r).
Proof. unfold build_update, smart_candle_new. ref. Qed.
#[local] Hint Resolve build_refines : ref.
Lemma step_refines c e o : refines (step c e o) (step (release c) e o).
Proof. unfold step, map_out. ref. Qed.
#[local] Hint Resolve step_refines : ref.
Lemma run_refines c : forall ops e, refines (run c e ops) (run (release c) e ops).
Proof. induction ops as [|o ops IH]; intros; cbn [run]; ref. Qed.
Lemma init_refines c : refines (init c) (init (release c)).
Proof. unfold init, exchange_new, accounting_new, debug_assert_accounting_equation. ref. Qed.

Lemma refines_done {A} (m m' : outcome A) a : refines m m' -> m = Done a -> m' = Done a.
Proof. intros [<-|(p & -> & _)] H; [exact H | discriminate]. Qed.
Lemma build_agree c ops e outs :
  (exists e0, init c = Done e0 /\ run c e0 ops = Done (e, outs)) ->
  exists e0, init (release c) = Done e0 /\ run (release c) e0 ops = Done (e, outs).
Proof.
  intros (e0 & H1 & H2). exists e0. split; [exact (refines_done _ _ _ (init_refines c) H1) | exact (refines_done _ _ _ (run_refines c ops e0) H2)].
Qed.
Lemma build_differ c e o :
  step c e o = step (release c) e o \/ exists p, step c e o = Panic p /\ debug_stop p.
Proof. apply step_refines. Qed.
