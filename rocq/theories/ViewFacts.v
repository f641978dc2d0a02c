(** Consequences of the lens simulation for histories of the exchange. *)
From Verif Require Import ProofBase Untracked SpecQuiet UntrackedProof SpecPanic PanicCor Spec SpecView ViewProof HealthProof StatsProof SpecConfig Scenario.

Lemma erase_inj l e e' tg : erase e' = view l (erase e) tg -> seen l e e'.
Proof.
  intros H. unfold seen. repeat split; match goal with |- ?f e' = _ => idtac end;
  [apply (f_equal qx_ms) in H | apply (f_equal qx_next_id) in H | apply (f_equal qx_acc) in H | apply (f_equal qx_pos) in H
  | apply (f_equal qx_active) in H | apply (f_equal qx_om) in H | apply (f_equal qx_updates) in H]; exact H.
Qed.
Lemma seen_erase l e e' : seen l e e' -> erase e' = view l (erase e) (ex_trig e').
Proof. intros (H1 & H2 & H3 & H4 & H5 & H6 & H7). unfold erase, view. cbn. rewrite H1, H2, H3, H4, H5, H6, H7. reflexivity. Qed.

Lemma done_pair {A B} (a a' : A) (b b' : B) : Done (a, b) = Done (a', b') -> a = a' /\ b = b'.
Proof. intros H. injection H as -> ->. auto. Qed.

Lemma lens_run l c e e' ops : (forall a b, l_uid l a = l_uid l b -> a = b) -> 0 <= l_gift l -> seen l e e' ->
  match run c e ops with
  | Done (e1, rs) => (0 < l_gift l /\ Exists refused rs) \/
      exists e1', run c e' (map (see_op l) ops) = Done (e1', map (see_result (see_out l)) rs) /\ seen l e1 e1'
  | Panic w => 0 < l_gift l \/ In w dead \/ run c e' (map (see_op l) ops) = Panic w
  end.
Proof.
  intros I G S. pose proof (run_see l I G c ops (erase e) (ex_trig e')) as H. rewrite untracked_run, <- (seen_erase _ _ _ S), untracked_run in H.
  unfold erased in H. destruct (run c e ops) as [[e1 rs]|w], (run c e' (map (see_op l) ops)) as [[e1' rs']|w'].
  - destruct H as [H|[tg H]]; [left; exact H|]. right. apply done_pair in H as [H ->]. exists e1'. split; [reflexivity | exact (erase_inj _ _ _ _ H)].
  - destruct H as [H|[tg H]]; [left; exact H | discriminate].
  - destruct H as [H|[H|H]]; auto. discriminate.
  - destruct H as [H|[H|H]]; auto. injection H as ->. auto.
Qed.
Lemma lens_step l c e e' o : (forall a b, l_uid l a = l_uid l b -> a = b) -> 0 <= l_gift l -> seen l e e' ->
  match step c e o with
  | Done (e1, r) => (0 < l_gift l /\ refused r) \/
      exists e1', step c e' (see_op l o) = Done (e1', see_result (see_out l) r) /\ seen l e1 e1'
  | Panic w => (0 < l_gift l /\ In w saved) \/ In w dead \/ step c e' (see_op l o) = Panic w
  end.
Proof.
  intros I G S. pose proof (step_see l I G c (erase e) (ex_trig e') o) as H. rewrite untracked_step, <- (seen_erase _ _ _ S), untracked_step in H.
  unfold erased in H. destruct (step c e o) as [[e1 r]|w], (step c e' (see_op l o)) as [[e1' r']|w']; cbn in H.
  - destruct H as [H|([q r2] & H & [[tg HQ] HR])]; [left; exact H|]. right. apply done_pair in H as [<- <-]. cbn [fst snd] in HQ, HR. subst r'. exists e1'. split; [reflexivity | exact (erase_inj _ _ _ _ HQ)].
  - destruct H as [H|(x & H & _)]; [left; exact H | discriminate].
  - destruct H as [H|[H|H]]; auto. discriminate.
  - destruct H as [H|[H|H]]; auto. injection H as ->. auto.
Qed.
Lemma never_dead c e o w : valid_config c -> reachable c e -> In w dead -> step c e o <> Panic w.
Proof. intros V R H. apply in_app_or in H as [H|H]; [exact (never_book c e o w V R H) | exact (never_other c e o w V R H)]. Qed.
Lemma run_never_dead c w : valid_config c -> In w dead -> forall ops e, reachable c e -> run c e ops <> Panic w.
Proof.
  intros V D. induction ops as [|o ops IH]; intros e R; [discriminate|]. cbn [run]. destruct (step c e o) as [[e1 r]|w'] eqn:E; cbn [bind].
  - pose proof (IH e1 (reach_step _ _ _ _ _ R E)) as N. destruct (run c e1 ops) as [[e2 rs]|w']; cbn; [discriminate | congruence].
  - intros H. injection H as ->. exact (never_dead c e o w V R D E).
Qed.

(** * More money *)
Lemma see_op_richer k o : see_op (richer k) o = o.
Proof.
  assert (T : forall t, see_trade (richer k) t = t) by (intros []; reflexivity). assert (B : forall t, see_bba (richer k) t = t) by (intros []; reflexivity).
  assert (M : forall ts, map (see_trade (richer k)) ts = ts) by (intros ts; rewrite (map_ext _ (fun t => t) T); apply map_id).
  destruct o as [[b|t|[]|ts b f]| | |[]| |[b|t|[]|ts b f]]; cbn; rewrite ?T, ?B, ?M; reflexivity.
Qed.
Lemma see_ops_richer k ops : map (see_op (richer k)) ops = ops.
Proof. rewrite (map_ext _ (fun t => t) (see_op_richer k)). apply map_id. Qed.
Lemma see_order_richer k o : see_order (richer k) o = o.
Proof. destruct o; reflexivity. Qed.
Lemma see_update_richer k u : see_update (richer k) u = u.
Proof. destruct u as [[]|[]]; reflexivity. Qed.
Lemma see_result_richer k r : see_result (see_out (richer k)) r = r.
Proof.
  destruct r as [[us|[]|o|]|e]; cbn; rewrite ?see_order_richer; try reflexivity.
  rewrite (map_ext _ (fun t => t) (see_update_richer k)), map_id. reflexivity.
Qed.
Lemma see_results_richer k rs : map (see_result (see_out (richer k))) rs = rs.
Proof. rewrite (map_ext _ (fun t => t) (see_result_richer k)). apply map_id. Qed.
Lemma seen_more k e e' : seen (richer k) e e' -> more_money k e e'.
Proof.
  intros (H1 & H2 & H3 & H4 & H5 & H6 & H7). unfold more_money.
  rewrite (map_ext _ (fun t => t) (see_order_richer k)), map_id in H5, H6. rewrite (map_ext _ (fun t => t) (see_update_richer k)), map_id in H7.
  repeat split; try assumption.
  - rewrite H1. destruct (ex_ms e); reflexivity.
  - intros i. rewrite H3. destruct i; unfold margin_balance_of, net_balance; cbn; lia.
Qed.
Lemma accounting_new_done dbg n : exists z, z = {| ta_debits := 0; ta_credits := 0 |} /\ accounting_new dbg n =
  Done {| ac_wallet := post_debit z n; ac_om := z; ac_pm := z; ac_fee := z; ac_broker := z; ac_treasury := post_credit z n |}.
Proof.
  eexists. split; [reflexivity|]. unfold accounting_new, debug_assert_accounting_equation. destruct dbg; [|reflexivity].
  cbv zeta. match goal with |- context [debug_assert true (?a =? ?b) _] => replace (a =? b) with true by (symmetry; apply Z.eqb_eq; unfold debit_sum, credit_sum; cbn; lia) end. reflexivity.
Qed.
Lemma richer_init k c e : 0 <= k -> init c = Done e -> exists e', init (richer_config k c) = Done e' /\ seen (richer k) e e'.
Proof.
  intros K. unfold init, tracker_new, exchange_new. cbn [richer_config c_start c_dbg c_sample_s].
  destruct (Z.ltb_spec 0 (c_start c)); cbn [assert bind]; [|discriminate]. destruct (Z.ltb_spec 0 (c_start c + k)); [cbn [assert bind] | lia].
  destruct (accounting_new_done (c_dbg c) (c_start c)) as (z & -> & ->). destruct (accounting_new_done (c_dbg c) (c_start c + k)) as (z & -> & ->).
  cbn [bind]. intros H'. injection H' as <-. eexists. split; [reflexivity|]. repeat split.
Qed.
Lemma loop_richer k c u : forall b e ids, fill_loop (richer_config k c) u e ids b = fill_loop c u e ids b.
Proof.
  induction b as [|o b IH]; intros; [reflexivity|]. cbn [fill_loop]. change (fill_one (richer_config k c) u e ids o) with (fill_one c u e ids o).
  destruct (fill_one c u e ids o) as [[[e1 i1] o1]|]; cbn [bind]; [rewrite IH|]; reflexivity.
Qed.
Lemma check_richer k c e u : check_active_orders (richer_config k c) e u = check_active_orders c e u.
Proof. unfold check_active_orders. rewrite loop_richer. reflexivity. Qed.
Lemma value_richer k c : forall b, orders_value (c_kind (richer_config k c)) (c_scale (richer_config k c)) b = orders_value (c_kind c) (c_scale c) b.
Proof. reflexivity. Qed.
Lemma update_richer k c e u : update_state (richer_config k c) e u = update_state c e u.
Proof.
  unfold update_state. change (c_dbg (richer_config k c)) with (c_dbg c). change (c_spec (richer_config k c)) with (c_spec c).
  destruct (market_update_state _ _ u (ex_ms e)); [|reflexivity]. cbn [bind]. destruct (should_trigger _ _) as [t []]; cbv zeta iota;
  change (check_maintenance_margin (richer_config k c)) with (check_maintenance_margin c); rewrite check_richer; reflexivity.
Qed.
Lemma step_richer k c e o : step (richer_config k c) e o = step c e o.
Proof.
  destruct o; try reflexivity; cbn [step]; change (c_dbg (richer_config k c)) with (c_dbg c); destruct (build_update _ _); try reflexivity; cbn [bind].
  - rewrite update_richer. reflexivity.
  - rewrite check_richer. reflexivity.
Qed.
Lemma run_richer k c : forall ops e, run (richer_config k c) e ops = run c e ops.
Proof. induction ops as [|o ops IH]; intros e; [reflexivity|]. cbn [run]. rewrite step_richer. destruct (step c e o) as [[e1 r]|]; [cbn [bind]; rewrite IH|]; reflexivity. Qed.
Lemma more_history c k ops e outs : 0 <= k -> history c ops e outs -> ~ Exists refused outs ->
  exists e', history (richer_config k c) ops e' outs /\ more_money k e e'.
Proof.
  intros K (e0 & I & R) N. destruct (richer_init k c e0 K I) as (e0' & I' & S).
  pose proof (lens_run (richer k) c e0 e0' ops (fun a b H => H) K S) as H. rewrite R in H.
  destruct H as [[_ H]|(e' & H & S')]; [contradiction|]. rewrite see_ops_richer, see_results_richer in H.
  exists e'. split; [exists e0'; split; [exact I' | rewrite run_richer; exact H] | apply seen_more, S'].
Qed.
Lemma more_step c k e e' o : 0 <= k -> seen (richer k) e e' ->
  match step c e o with
  | Done (e1, r) => (0 < k /\ refused r) \/ exists e1', step c e' o = Done (e1', r) /\ seen (richer k) e1 e1'
  | Panic w => (0 < k /\ In w saved) \/ In w dead \/ step c e' o = Panic w
  end.
Proof.
  intros K S. pose proof (lens_step (richer k) c e e' o (fun a b H => H) K S) as H. rewrite see_op_richer in H.
  destruct (step c e o) as [[e1 r]|w]; [rewrite see_result_richer in H|]; exact H.
Qed.
Lemma more_seen k e e' : more_money k e e' -> exists a, a = see_acc (richer k) (ex_acc e) /\ forall i, margin_balance_of (ex_acc e') i = margin_balance_of a i.
Proof.
  intros H. eexists. split; [reflexivity|]. intros i. destruct H as (_ & _ & _ & _ & _ & _ & H). rewrite H. destruct i; unfold margin_balance_of, net_balance; cbn; lia.
Qed.
Lemma in_step c k ops e outs e' outs' : 0 <= k -> history c ops e outs -> ~ Exists refused outs -> history (richer_config k c) ops e' outs' ->
  outs' = outs /\ seen (richer k) e e'.
Proof.
  intros K (e0 & I & R) N (e0' & I' & R'). destruct (richer_init k c e0 K I) as (x & J & S). rewrite J in I'. injection I' as ->. rewrite run_richer in R'.
  pose proof (lens_run (richer k) c e0 e0' ops (fun a b H => H) K S) as H. rewrite R in H. rewrite see_ops_richer, see_results_richer, R' in H.
  destruct H as [[_ H]|(y & H & S')]; [contradiction|]. apply done_pair in H as [-> ->]. auto.
Qed.
Lemma more_call c k ops e outs e' outs' o e1 r : 0 <= k -> history c ops e outs -> ~ Exists refused outs -> history (richer_config k c) ops e' outs' ->
  step c e o = Done (e1, r) -> refused r \/ exists e1', step (richer_config k c) e' o = Done (e1', r) /\ more_money k e1 e1'.
Proof.
  intros K H N H' E. destruct (in_step c k ops e outs e' outs' K H N H') as [_ S]. pose proof (more_step c k e e' o K S) as M. rewrite E in M.
  destruct M as [[_ M]|(e1' & M & S')]; [left; exact M|]. right. exists e1'. rewrite step_richer. split; [exact M | apply seen_more, S'].
Qed.
Lemma more_refused c k ops e outs e' outs' o e1 r e1' r' : 0 <= k -> history c ops e outs -> ~ Exists refused outs -> history (richer_config k c) ops e' outs' ->
  step c e o = Done (e1, r) -> step (richer_config k c) e' o = Done (e1', r') -> refused r' -> refused r.
Proof.
  intros K H N H' E E' F. destruct (more_call c k ops e outs e' outs' o e1 r K H N H' E) as [M|(x & M & _)]; [exact M|]. rewrite M in E'. apply done_pair in E' as [_ ->]. exact F.
Qed.
Lemma more_panic c k ops e outs e' outs' o w : valid_config c -> 0 <= k -> history c ops e outs -> ~ Exists refused outs -> history (richer_config k c) ops e' outs' ->
  step c e o = Panic w -> In w saved \/ step (richer_config k c) e' o = Panic w.
Proof.
  intros V K H N H' E. destruct (in_step c k ops e outs e' outs' K H N H') as [_ S]. pose proof (more_step c k e e' o K S) as M. rewrite E in M. rewrite step_richer.
  destruct M as [[_ M]|[M|M]]; [left; exact M | | right; exact M]. exfalso. apply (never_dead c e o w V); [exists ops, outs; exact H | exact M | exact E].
Qed.
Lemma more_new_panic c k ops e outs e' outs' o w : 0 <= k -> history c ops e outs -> ~ Exists refused outs -> history (richer_config k c) ops e' outs' ->
  step (richer_config k c) e' o = Panic w -> (exists w', step c e o = Panic w') \/ exists e1 r, step c e o = Done (e1, r) /\ refused r.
Proof.
  intros K H N H' E. destruct (step c e o) as [[e1 r]|w'] eqn:F; [|left; eauto]. right. exists e1, r. split; [reflexivity|].
  destruct (more_call c k ops e outs e' outs' o e1 r K H N H' F) as [M|(x & M & _)]; [exact M | congruence].
Qed.

(** * Lenses without a gift *)
Lemma lens_init l c e : l_gift l = 0 -> l_time l 0 = 0 -> init c = Done e -> seen l e e.
Proof.
  intros G T. unfold init, tracker_new, exchange_new. destruct (0 <? c_start c); cbn [assert bind]; [|discriminate].
  destruct (accounting_new_done (c_dbg c) (c_start c)) as (z & -> & ->). cbn [bind]. intros H. injection H as <-.
  repeat split; unfold see_ms, see_acc, post_debit, post_credit; cbn; [rewrite T; reflexivity | rewrite G, Z.add_0_r; reflexivity].
Qed.
Lemma lens_reports l c ops : valid_config c -> (forall a b, l_uid l a = l_uid l b -> a = b) -> l_gift l = 0 -> l_time l 0 = 0 ->
  reports (play c (map (see_op l) ops)) = see_reports l (reports (play c ops)).
Proof.
  intros V I G T. unfold play. destruct (init c) as [e0|w] eqn:E; [|reflexivity]. cbn [bind].
  pose proof (lens_run l c e0 e0 ops I ltac:(lia) (lens_init l c e0 G T E)) as H. destruct (run c e0 ops) as [[e rs]|w] eqn:R; cbn.
  - destruct H as [[H _]|(e' & -> & _)]; [lia | reflexivity].
  - destruct H as [H|[H| ->]]; [lia | exfalso; exact (run_never_dead c w V H ops e0 (init_reach c e0 E) R) | reflexivity].
Qed.
Lemma lens_history l c ops e outs : (forall a b, l_uid l a = l_uid l b -> a = b) -> l_gift l = 0 -> l_time l 0 = 0 ->
  history c ops e outs -> exists e', history c (map (see_op l) ops) e' (map (see_result (see_out l)) outs) /\ seen l e e'.
Proof.
  intros I G T (e0 & E & R). pose proof (lens_run l c e0 e0 ops I ltac:(lia) (lens_init l c e0 G T E)) as H. rewrite R in H.
  destruct H as [[H _]|(e' & H & S)]; [lia|]. exists e'. split; [exists e0; auto | exact S].
Qed.
Lemma times_reports c ops ops' : valid_config c -> same_but_times ops ops' ->
  see_reports timeless (reports (play c ops)) = see_reports timeless (reports (play c ops')).
Proof.
  intros V S. rewrite <- !lens_reports by (auto || reflexivity). unfold same_but_times in S. rewrite S. reflexivity.
Qed.
Lemma times_history c ops ops' e outs : valid_config c -> same_but_times ops ops' -> history c ops e outs ->
  exists e' outs', history c ops' e' outs' /\ map (see_result (see_out timeless)) outs' = map (see_result (see_out timeless)) outs /\ same_trading_but_times e e'.
Proof.
  intros V S H. pose proof (times_reports c ops ops' V S) as P.
  destruct (lens_history timeless c ops e outs (fun a b H => H) eq_refl eq_refl H) as (x & Hx & Sx).
  destruct H as (e0 & E & R). unfold play in P. rewrite E in P. cbn [bind] in P. rewrite R in P. cbn in P.
  destruct (run c e0 ops') as [[e' outs']|w] eqn:R'; [|discriminate]. cbn in P. injection P as P.
  exists e', outs'. split; [exists e0; auto|]. split; [symmetry; exact P|].
  destruct (lens_history timeless c ops' e' outs' (fun a b H => H) eq_refl eq_refl (ex_intro _ e0 (conj E R'))) as (x' & Hx' & Sx').
  unfold same_but_times in S. rewrite <- S in Hx'. destruct Hx as (y & Ey & Ry), Hx' as (y' & Ey' & Ry'). rewrite Ey in Ey'. injection Ey' as <-. rewrite Ry in Ry'. apply done_pair in Ry' as [<- _].
  destruct Sx as (A1 & A2 & A3 & A4 & A5 & A6 & A7), Sx' as (B1 & B2 & B3 & B4 & B5 & B6 & B7). unfold same_trading_but_times.
  repeat split; try congruence. rewrite A3 in B3. destruct (ex_acc e) as [[] ? ? ? ? []], (ex_acc e') as [[] ? ? ? ? []]. unfold see_acc, post_debit, post_credit in B3. cbn in B3.
  rewrite !Z.add_0_r in B3. congruence.
Qed.

(** * Witnesses *)
Definition not_refused (r : result error out) : bool := match r with Err (ERisk NotEnoughAvailableBalance) => false | _ => true end.
Lemma never_refused rs : forallb not_refused rs = true -> ~ Exists refused rs.
Proof. intros H E. apply Exists_exists in E as (r & I & R). rewrite forallb_forall in H. specialize (H r I). unfold refused in R. subst r. discriminate. Qed.
