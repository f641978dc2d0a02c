(** Copies of an exchange. *)
From Verif Require Import ProofBase BookLemmas StepLemmas FillLemmas OpLemmas Inv Spec SpecConfig Clone SpecClone.

Definition room (x : xchg) : Z := cap_tracked (x_caps x).

(** The books fit the allocated sizes. *)
Record XInv (c : config) (x : xchg) : Prop := {
  xi_inv : Inv (with_max c (room x)) (x_ex x);
  xi_arena : room x <= cap_arena (x_caps x);
  xi_max : room x <= c_max c
}.

(** An exchange that is not a copy. *)
Definition whole (c : config) (x : xchg) : Prop := x_caps x = caps_new c.

Lemma with_max_same c : with_max c (c_max c) = c.
Proof. destruct c; reflexivity. Qed.

Lemma bind_ext {A B} (m : outcome A) (f g : A -> outcome B) : (forall a, m = Done a -> f a = g a) -> bind m f = bind m g.
Proof. destruct m; cbn; auto. Qed.


(** ** Limit orders *)
Lemma x_append_eq c k e o :
  cap_tracked k <= cap_arena k -> cap_tracked k <= 10000 -> Inv (with_max c (cap_tracked k)) e ->
  ~ In (lo_id o) (ids (ex_active e)) ->
  x_append c k e o = append_limit_order (with_max c (cap_tracked k)) e o.
Proof.
  intros Ha Hm I Hf. unfold x_append, append_limit_order. change (c_max (with_max c (cap_tracked k))) with (cap_tracked k).
  apply bind_ext. intros [om' r] Ho. destruct r as [[]|]; [|reflexivity]. cbn [set_om ex_active].
  rewrite !book_insert_new by exact Hf.
  apply om_update_done in Ho as [_ [(_ & _ & Hl)|(old & Hg & _)]].
  - rewrite (inv_books _ _ I) in Hl. unfold active_capacity.
    destruct (Z.leb_spec (cap_arena k) (Z.of_nat (length (ex_active e)))); [lia|].
    destruct (Z.leb_spec 10000 (Z.of_nat (length (ex_active e)))); [lia|]. reflexivity.
  - exfalso. rewrite (inv_books _ _ I) in Hg. apply get_by_id_in in Hg as [Hin He]. apply Hf. rewrite <- He. apply in_map; assumption.
Qed.

Lemma x_submit_eq c k e o :
  cap_tracked k <= cap_arena k -> cap_tracked k <= 10000 -> Inv (with_max c (cap_tracked k)) e ->
  x_submit_limit c k e o = submit_limit_order (with_max c (cap_tracked k)) e o.
Proof.
  intros Ha Hm I. unfold x_submit_limit, submit_limit_order. cbv zeta. cbn [with_max c_spec c_scale].
  apply bind_ext. intros [[]|] _; [|reflexivity].
  apply bind_ext. intros [[]|] _; [|reflexivity].
  apply bind_ext. intros [[]|] _; [|reflexivity].
  destruct (marketable _ _); [reflexivity|]. rewrite x_append_eq; [reflexivity|assumption..| |].
  - apply (trk_next_inv _ _ (log_limit_order_submission (ex_trk e)) I).
  - cbn. apply (inv_fresh _ _ I).
Qed.

Lemma x_amend_eq c k e id o :
  cap_tracked k <= cap_arena k -> cap_tracked k <= 10000 -> Inv (with_max c (cap_tracked k)) e ->
  x_amend c k e id o = amend_limit_order (with_max c (cap_tracked k)) e id o.
Proof.
  intros Ha Hm I. unfold x_amend, amend_limit_order. destruct (get_by_id (ex_active e) id) as [ex|]; [|reflexivity].
  apply bind_ext. intros total _. cbv zeta. destruct (_ <=? 0); [reflexivity|].
  apply bind_ext. intros o' _. change (cancel_limit_order (with_max c (cap_tracked k)) e (ByOrderId id)) with (cancel_limit_order c e (ByOrderId id)).
  apply bind_ext. intros [e1 [r|err]] Hc; [|reflexivity]. apply x_submit_eq; [assumption..|].
  change (cancel_limit_order c e (ByOrderId id)) with (cancel_limit_order (with_max c (cap_tracked k)) e (ByOrderId id)) in Hc.
  apply (step_inv (with_max c (cap_tracked k)) e (OpCancel (ByOrderId id)) e1 (Ok (OutLimit r)) Hm I). cbn [step]. unfold map_out. rewrite Hc. reflexivity.
Qed.

(** ** Market data *)
Lemma pushed_room cap n : Z.of_nat n <= cap -> pushed_cap cap n = cap.
Proof.
  induction n as [|n IH]; intros H; [reflexivity|]. cbn [pushed_cap]. rewrite IH by lia. unfold push_cap.
  destruct (Z.ltb_spec (Z.of_nat n) cap); [reflexivity|lia].
Qed.

Definition first {A B} (m : outcome (A * B)) : outcome A := '(a, _) <- m ;; Done a.

Lemma first_bind {A B C} (m : outcome C) (f : C -> outcome (A * B)) : first (bind m f) = bind m (fun x => first (f x)).
Proof. destruct m; reflexivity. Qed.

Lemma filled_fewer c u l : Z.of_nat (length (map lo_id (filter (fully c u) l))) <= Z.of_nat (length l).
Proof. rewrite map_length. induction l as [|o l IH]; cbn [filter]; [lia|]. destruct (fully c u o); cbn [length]; lia. Qed.

Lemma x_check_eq c k e u :
  c_dbg c = false \/ (cap_ids k = c_max c /\ Z.of_nat (length (ex_active e)) <= c_max c) ->
  first (x_check c k e u) = check_active_orders (with_max c (cap_tracked k)) e u.
Proof.
  intros Hd. unfold x_check, check_active_orders. cbv zeta. destruct (negb (can_fill u)); [reflexivity|].
  cbn [with_max c_dbg]. rewrite first_bind. apply bind_ext. intros _ _.
  rewrite first_bind. apply bind_ext. intros [[e1 ids] arena] Hl. cbn beta iota. rewrite first_bind. apply bind_ext. intros act _. cbn beta iota.
  rewrite first_bind. cbn [cap_ids].
  replace (debug_assert (c_dbg c) (pushed_cap (cap_ids k) (length ids) =? c_max c) PIdsCapacityDebug) with (@Done unit tt).
  2:{ destruct Hd as [->|[Hk Hn]]; [reflexivity|]. apply fill_loop_spec in Hl as (_ & _ & _ & ->). cbn [app set_updates ex_active].
      rewrite pushed_room, Hk, Z.eqb_refl; [destruct (c_dbg c); reflexivity|].
      rewrite Hk. eapply Z.le_trans; [apply filled_fewer|]. exact Hn. }
  cbn [bind]. repeat (rewrite first_bind; apply bind_ext; intros _ _; cbn beta iota). reflexivity.
Qed.

Lemma x_check_done c k e u e' k' :
  x_check c k e u = Done (e', k') ->
  check_active_orders (with_max c (cap_tracked k)) e u = Done e' /\
  cap_arena k' = cap_arena k /\ cap_tracked k' = cap_tracked k /\
  (Z.of_nat (length (ex_active e)) <= cap_ids k -> k' = k).
Proof.
  unfold x_check, check_active_orders. cbv zeta. destruct (negb (can_fill u)).
  { intros H. injection H as <- <-. auto. }
  cbn [with_max c_dbg]. intros H.
  apply bind_done in H as [? [H0 H]]. rewrite H0. cbn [bind].
  apply bind_done in H as [[[e1 ids] arena] [H1 H]]. pose proof H1 as HL. rewrite H1. cbn [bind].
  apply bind_done in H as [act [H2 H]]. rewrite H2. cbn [bind].
  apply bind_done in H as [? [_ H]].
  apply bind_done in H as [? [H3 H]]. rewrite H3. cbn [bind].
  apply bind_done in H as [? [H4 H]]. rewrite H4. cbn [bind].
  apply bind_done in H as [? [H5 H]].
  change (computed_order_margin (with_max c (cap_tracked k)) (set_active e1 act)) with (computed_order_margin c (set_active e1 act)).
  rewrite H5. cbn [bind].
  apply bind_done in H as [? [H6 H]]. rewrite H6. cbn [bind]. injection H as <- <-.
  split; [reflexivity|]. split; [reflexivity|]. split; [reflexivity|]. intros Hn.
  apply fill_loop_spec in HL as (_ & _ & _ & ->). cbn [app set_updates ex_active].
  rewrite pushed_room; [destruct k; reflexivity|]. eapply Z.le_trans; [apply filled_fewer|]. exact Hn.
Qed.

Lemma x_update_done c k e u e' k' r :
  x_update c k e u = Done (e', k', r) ->
  update_state (with_max c (cap_tracked k)) e u = Done (e', r) /\
  cap_arena k' = cap_arena k /\ cap_tracked k' = cap_tracked k /\
  (Z.of_nat (length (ex_active e)) <= cap_ids k -> k' = k).
Proof.
  unfold x_update, update_state. intros H. apply bind_done in H as [ms [H0 H]].
  cbn [with_max c_dbg c_spec]. rewrite H0. cbn [bind]. cbv zeta in *.
  set (e2 := set_trk (set_ms e ms) _) in *. destruct (should_trigger (ex_trig e2) (update_ts u)) as [trig fire].
  set (e4 := if fire then _ else _) in *.
  assert (A4 : ex_active e4 = ex_active e) by (unfold e4, e2; destruct fire; reflexivity).
  change (check_maintenance_margin (with_max c (cap_tracked k)) (ms_bid (ex_ms e4)) (ms_ask (ex_ms e4)) (ex_pos e4))
    with (check_maintenance_margin c (ms_bid (ex_ms e4)) (ms_ask (ex_ms e4)) (ex_pos e4)).
  destruct (check_maintenance_margin c (ms_bid (ex_ms e4)) (ms_ask (ex_ms e4)) (ex_pos e4)).
  - apply bind_done in H as [[e5 k5] [H1 H]]. injection H as <- <- <-.
    apply x_check_done in H1 as (-> & Hc). rewrite A4 in Hc. auto.
  - apply bind_done in H as [e5 [H1 H]]. injection H as <- <- <-.
    change (liquidate (with_max c (cap_tracked k)) e4) with (liquidate c e4). rewrite H1. cbn [bind]. auto.
Qed.

Lemma x_update_eq c k e u :
  c_dbg c = false \/ (cap_ids k = c_max c /\ Z.of_nat (length (ex_active e)) <= c_max c) ->
  ('(e1, _, r) <- x_update c k e u ;; Done (e1, r)) = update_state (with_max c (cap_tracked k)) e u.
Proof.
  intros Hd. unfold x_update, update_state. cbn [with_max c_dbg c_spec].
  destruct (market_update_state _ _ _ _) as [ms|]; [|reflexivity]. cbn [bind]. cbv zeta.
  set (e2 := set_trk (set_ms e ms) _). destruct (should_trigger (ex_trig e2) (update_ts u)) as [trig fire].
  set (e4 := if fire then _ else _).
  assert (A4 : ex_active e4 = ex_active e) by (unfold e4, e2; destruct fire; reflexivity).
  change (check_maintenance_margin (with_max c (cap_tracked k)) (ms_bid (ex_ms e4)) (ms_ask (ex_ms e4)) (ex_pos e4))
    with (check_maintenance_margin c (ms_bid (ex_ms e4)) (ms_ask (ex_ms e4)) (ex_pos e4)).
  destruct (check_maintenance_margin c (ms_bid (ex_ms e4)) (ms_ask (ex_ms e4)) (ex_pos e4)).
  - pose proof (x_check_eq c k e4 u) as E. rewrite A4 in E. specialize (E Hd). rewrite <- E. unfold first.
    destruct (x_check c k e4 u) as [[e5 k5]|]; reflexivity.
  - change (liquidate (with_max c (cap_tracked k)) e4) with (liquidate c e4). destruct (liquidate c e4); reflexivity.
Qed.

(** ** Calls *)
Lemma seen_bind {A B} (m : outcome A) (f : A -> outcome (xchg * B)) : seen (bind m f) = bind m (fun x => seen (f x)).
Proof. destruct m; reflexivity. Qed.

Lemma x_call_eq c x o :
  c_max c <= 10000 -> XInv c x -> c_dbg c = false \/ whole c x ->
  seen (x_call c x o) = step (with_max c (room x)) (x_ex x) o.
Proof.
  intros Hm [I Ha Hr] Hd. destruct x as [e k]. unfold room in *. cbn [x_ex x_caps] in *.
  assert (Hd' : c_dbg c = false \/ (cap_ids k = c_max c /\ Z.of_nat (length (ex_active e)) <= c_max c)).
  { destruct Hd as [Hd|Hw]; [left; exact Hd|]. right. unfold whole in Hw. cbn [x_caps] in Hw. subst k. split; [reflexivity|].
    exact (inv_len _ _ I). }
  assert (K : forall m m', m = m' -> seen ('(e1, r) <- m ;; Done ({| x_ex := e1; x_caps := k |}, r)) = (m' : outcome (exchange * result error out)))
    by (intros m ? <-; destruct m as [[]|]; reflexivity).
  destruct o; cbn [x_call step x_ex x_caps]; cbv zeta.
  - change (c_dbg (with_max c (cap_tracked k))) with (c_dbg c). rewrite seen_bind. apply bind_ext. intros u _.
    rewrite <- (x_update_eq c k e u Hd'). unfold map_out. destruct (x_update c k e u) as [[[e1 k1] res]|]; reflexivity.
  - apply K. reflexivity.
  - destruct (limit_new sd price qty uid); [|reflexivity]. apply K. rewrite x_submit_eq by (assumption || lia). reflexivity.
  - apply K. reflexivity.
  - destruct (limit_new sd price qty uid); [|reflexivity]. apply K. rewrite x_amend_eq by (assumption || lia). reflexivity.
  - change (c_dbg (with_max c (cap_tracked k))) with (c_dbg c). rewrite seen_bind. apply bind_ext. intros u _.
    rewrite <- (x_check_eq c k e u Hd'). unfold first. destruct (x_check c k e u) as [[e1 k1]|]; reflexivity.
Qed.

Lemma x_call_done c x o x' r :
  c_max c <= 10000 -> XInv c x -> x_call c x o = Done (x', r) ->
  step (with_max c (room x)) (x_ex x) o = Done (x_ex x', r) /\
  cap_arena (x_caps x') = cap_arena (x_caps x) /\ room x' = room x /\
  (Z.of_nat (length (ex_active (x_ex x))) <= cap_ids (x_caps x) -> x_caps x' = x_caps x).
Proof.
  intros Hm [I Ha Hr] H. destruct x as [e k]. unfold room in *. cbn [x_ex x_caps] in *.
  assert (K : forall m m', m = m' -> ('(e1, r) <- m ;; Done ({| x_ex := e1; x_caps := k |}, r)) = Done (x', r) ->
    m' = Done (x_ex x', r) /\ x_caps x' = k).
  { intros m ? <- E. apply bind_done in E as [[e1 r1] [-> E]]. injection E as <- <-. auto. }
  destruct o; cbn [x_call step x_ex x_caps] in *; cbv zeta in *.
  - change (c_dbg (with_max c (cap_tracked k))) with (c_dbg c). apply bind_done in H as [u [-> H]]. cbn [bind].
    apply bind_done in H as [[[e1 k1] res] [H1 H]]. injection H as <- <-. apply x_update_done in H1 as (E & H1).
    unfold map_out. rewrite E. cbn [bind x_ex x_caps]. auto.
  - apply (K _ _ eq_refl) in H as [H <-]. auto.
  - destruct (limit_new sd price qty uid).
    + apply (K _ _ eq_refl) in H as [H <-]. rewrite x_submit_eq in H by (assumption || lia). auto.
    + injection H as <- <-. auto.
  - apply (K _ _ eq_refl) in H as [H <-]. auto.
  - destruct (limit_new sd price qty uid).
    + apply (K _ _ eq_refl) in H as [H <-]. rewrite x_amend_eq in H by (assumption || lia). auto.
    + injection H as <- <-. auto.
  - change (c_dbg (with_max c (cap_tracked k))) with (c_dbg c). apply bind_done in H as [u [-> H]]. cbn [bind].
    apply bind_done in H as [[e1 k1] [H1 H]]. injection H as <- <-. apply x_check_done in H1 as (E & H1).
    rewrite E. cbn [bind x_ex x_caps]. auto.
Qed.

Lemma x_call_inv c x o x' r : c_max c <= 10000 -> XInv c x -> x_call c x o = Done (x', r) -> XInv c x'.
Proof.
  intros Hm X H. pose proof X as [I Ha Hr]. apply x_call_done in H as (E & Ea & Er & _); [|assumption..].
  constructor; rewrite ?Er, ?Ea; try assumption. apply (step_inv (with_max c (room x)) _ _ _ _ (Z.le_trans _ _ _ Hr Hm) I E).
Qed.

Lemma x_call_whole c x o x' r : c_max c <= 10000 -> XInv c x -> whole c x -> x_call c x o = Done (x', r) -> whole c x'.
Proof.
  intros Hm X W H. pose proof X as [I Ha Hr]. apply x_call_done in H as (_ & _ & _ & E); [|assumption..].
  unfold whole in *. rewrite E; [exact W|]. rewrite W. cbn [caps_new cap_ids].
  eapply Z.le_trans; [exact (inv_len _ _ I)|exact Hr].
Qed.

(** ** Copies *)
Lemma clone_inv c x : XInv c x -> XInv c (x_clone x) /\ room (x_clone x) = resting x /\ resting x <= room x.
Proof.
  intros [I Ha Hr]. pose proof (inv_len _ _ I) as HL. change (c_max (with_max c (room x))) with (room x) in HL. unfold resting.
  assert (E : room (x_clone x) = Z.of_nat (length (ex_active (x_ex x)))).
  { unfold room, x_clone. cbn [x_caps cap_tracked]. rewrite (inv_books _ _ I). reflexivity. }
  split; [|split; [exact E|exact HL]]. constructor; rewrite ?E.
  - destruct I. constructor; try assumption. cbn [with_max c_max x_clone x_ex]. lia.
  - cbn [x_clone x_caps cap_arena]. lia.
  - lia.
Qed.

Lemma init_xinv c x : 0 <= c_max c <= 10000 -> x_init c = Done x -> XInv c x /\ whole c x /\ init c = Done (x_ex x).
Proof.
  intros Hm H. unfold x_init in H. apply bind_done in H as [e [H0 H]]. injection H as <-. split; [|split; [reflexivity|exact H0]].
  constructor; unfold room; cbn [x_caps caps_new cap_tracked cap_arena x_ex]; unfold active_capacity; try lia.
  rewrite with_max_same. apply (init_inv _ _ (proj1 Hm) H0).
Qed.

Lemma run_xinv c l x x' outs : c_max c <= 10000 -> XInv c x -> x_run c x l = Done (x', outs) -> XInv c x' /\ room x' <= room x.
Proof.
  intros Hm. revert x outs. induction l as [|[o|] l IH]; intros x outs X H; cbn [x_run] in H.
  - injection H as <- <-. split; [exact X|lia].
  - apply bind_done in H as [[x1 r] [H1 H]]. apply bind_done in H as [[x2 rs] [H2 H]]. injection H as <- <-.
    pose proof (x_call_done _ _ _ _ _ Hm X H1) as (_ & _ & Er & _). rewrite <- Er.
    apply (IH _ _ (x_call_inv _ _ _ _ _ Hm X H1) H2).
  - destruct (clone_inv _ _ X) as (Xc & Er & Hl). destruct (IH _ _ Xc H) as [X' H']. split; [exact X'|lia].
Qed.

Lemma reachable_xinv c x : 0 <= c_max c <= 10000 -> x_reachable c x -> XInv c x.
Proof.
  intros Hm (l & outs & x0 & H0 & H). destruct (init_xinv _ _ Hm H0) as (X & _ & _). apply (run_xinv _ _ _ _ _ (proj2 Hm) X H).
Qed.

Lemma x_run_eq c ops x :
  c_max c <= 10000 -> XInv c x -> c_dbg c = false \/ whole c x ->
  seen (x_run c x (map XCall ops)) = run (with_max c (room x)) (x_ex x) ops.
Proof.
  intros Hm. revert x. induction ops as [|o ops IH]; intros x X Hd; cbn [map x_run run]; [reflexivity|].
  pose proof (x_call_eq c x o Hm X Hd) as E. destruct (x_call c x o) as [[x1 r]|p] eqn:Ec; cbn [seen] in E; rewrite <- E; [|reflexivity].
  cbn [bind]. pose proof (x_call_inv _ _ _ _ _ Hm X Ec) as X1.
  pose proof (x_call_done _ _ _ _ _ Hm X Ec) as (_ & _ & Er & _).
  assert (Hd1 : c_dbg c = false \/ whole c x1) by (destruct Hd as [Hd|Hw]; [left; exact Hd|right; exact (x_call_whole _ _ _ _ _ Hm X Hw Ec)]).
  specialize (IH x1 X1 Hd1). rewrite Er in IH. rewrite <- IH. destruct (x_run c x1 (map XCall ops)) as [[]|]; reflexivity.
Qed.

(** ** The claims *)
Lemma original_same c ops :
  0 <= c_max c <= 10000 -> seen (x <- x_init c ;; x_run c x (map XCall ops)) = (e <- init c ;; run c e ops).
Proof.
  intros Hm. destruct (x_init c) as [x|p] eqn:E0; cbn [bind].
  - destruct (init_xinv _ _ Hm E0) as (X & W & ->). cbn [bind]. rewrite (x_run_eq _ _ _ (proj2 Hm) X (or_intror W)).
    unfold room. rewrite W. cbn [caps_new cap_tracked]. rewrite with_max_same. reflexivity.
  - unfold x_init in E0. destruct (init c); cbn [bind] in E0; [discriminate|]. injection E0 as <-. reflexivity.
Qed.

Lemma clone_release c x ops :
  0 <= c_max c <= 10000 -> c_dbg c = false -> x_reachable c x ->
  seen (x_run c (x_clone x) (map XCall ops)) = run (with_max c (resting x)) (x_ex x) ops.
Proof.
  intros Hm Hd R. destruct (clone_inv _ _ (reachable_xinv _ _ Hm R)) as (X & Er & _).
  rewrite (x_run_eq _ _ _ (proj2 Hm) X (or_introl Hd)), Er. reflexivity.
Qed.

Lemma clone_bounded c x l x' outs :
  0 <= c_max c <= 10000 -> x_reachable c x -> x_run c (x_clone x) l = Done (x', outs) -> resting x' <= resting x.
Proof.
  intros Hm R H. destruct (clone_inv _ _ (reachable_xinv _ _ Hm R)) as (X & Er & _).
  destruct (run_xinv _ _ _ _ _ (proj2 Hm) X H) as [X' H']. pose proof (inv_len _ _ (xi_inv _ _ X')) as HL.
  change (c_max (with_max c (room x'))) with (room x') in HL. unfold resting at 1. lia.
Qed.

Lemma clone_refuses c x sd p q uid x1 o :
  0 <= c_max c <= 10000 -> x_reachable c x -> x_call c x (OpLimit sd p q uid) = Done (x1, Ok o) ->
  exists x2, x_call c (x_clone x) (OpLimit sd p q uid) = Done (x2, Err EMaxNumberOfActiveOrders) /\
             ex_active (x_ex x2) = ex_active (x_ex x) /\ ex_acc (x_ex x2) = ex_acc (x_ex x).
Proof.
  intros Hm R H. pose proof (reachable_xinv _ _ Hm R) as X. pose proof X as [I _ _].
  cbn [x_call] in *. destruct (limit_new sd p q uid) as [l|]; [|discriminate]. cbn [x_clone x_ex x_caps] in *.
  apply bind_done in H as [[e1 r] [H E]]. injection E as <- ->. unfold map_out in H. apply bind_done in H as [[e2 r2] [H E]]. injection E as <- Hr.
  destruct r2 as [y|]; [|discriminate]. clear Hr. unfold x_submit_limit in *. cbv zeta in *.
  apply bind_done in H as [v [Hv H]]. rewrite Hv. destruct v; [|discriminate]. cbn [bind].
  apply bind_done in H as [v [Hp H]]. rewrite Hp. destruct v; [|discriminate]. cbn [bind].
  apply bind_done in H as [v [Hk H]]. rewrite Hk. destruct v; [|discriminate]. cbn [bind].
  destruct (marketable _ _); [discriminate|]. apply bind_done in H as [[e3 r3] [H _]].
  set (e' := set_next_id _ _) in *. set (ord := limit_into_pending _ _ _) in *.
  unfold x_append in *. cbn [cap_tracked]. apply bind_done in H as [[om' r4] [H _]]. unfold om_update in *.
  apply bind_done in H as [? [H0 _]]. rewrite H0. cbn [bind].
  assert (Hf : ~ In (lo_id ord) (ids (ex_om e'))).
  { change (ex_om e') with (ex_om (x_ex x)). rewrite (inv_books _ _ I). apply (inv_fresh _ _ I). }
  rewrite book_insert_new by exact Hf. change (ex_om e') with (ex_om (x_ex x)). rewrite Z.leb_refl. cbn [bind].
  eexists. split; [reflexivity|]. split; reflexivity.
Qed.

(** The size of the tracked book does not matter to an order it already has. *)
Lemma om_update_cap a b book o : In (lo_id o) (ids book) -> om_update a book o = om_update b book o.
Proof.
  intros H. unfold om_update, book_insert. destruct (get_by_id book (lo_id o)) as [old|] eqn:E; [reflexivity|].
  apply get_by_id_none in E. contradiction.
Qed.

Lemma fill_one_cap a b c u e is o : In (lo_id o) (ids (ex_om e)) ->
  fill_one (with_max c a) u e is o = fill_one (with_max c b) u e is o.
Proof.
  intros H. unfold fill_one. cbv zeta. apply bind_ext. intros [q|] _; [|reflexivity].
  apply bind_ext. intros _ _. apply bind_ext. intros _ _. apply bind_ext. intros [o' f] Ho.
  apply order_fill_spec in Ho as (_ & -> & ->). destruct (q =? lo_rem o); [reflexivity|].
  cbn [with_max c_max]. rewrite (om_update_cap a b) by exact H. reflexivity.
Qed.

Lemma fill_loop_cap a b c u todo : forall e is,
  NoDup (ids todo) -> NoDup (ids (ex_om e)) -> (forall i, In i (ids todo) -> In i (ids (ex_om e))) ->
  fill_loop (with_max c a) u e is todo = fill_loop (with_max c b) u e is todo.
Proof.
  induction todo as [|o t IH]; intros e is Hn Hm Hi; [reflexivity|]. cbn [fill_loop].
  rewrite (fill_one_cap a b) by (apply Hi; left; reflexivity).
  apply bind_ext. intros [[e1 is1] o'] H1.
  assert (K : NoDup (ids (ex_om e1)) /\ forall i, In i (ids t) -> In i (ids (ex_om e1))).
  { assert (Ho : In (lo_id o) (ids (ex_om e))) by (apply Hi; left; reflexivity).
    assert (Hrest : forall i, In i (ids t) -> i <> lo_id o /\ In i (ids (ex_om e))).
    { intros i H. inversion Hn as [|? ? Hx Hy]; subst. split; [intros ->; contradiction|apply Hi; right; exact H]. }
    apply fill_one_spec in H1 as [[q|] [_ Hc]].
    - destruct Hc as [F _]. pose proof (fe_om _ _ _ _ _ _ F) as Hf. destruct (q =? lo_rem o).
      + apply om_remove_id_done in Hf as [old Hf]. destruct (remove_id_ids _ _ _ _ Hm Hf) as (Hd & _ & Hx).
        split; [exact Hd|]. intros i H. destruct (Hrest i H) as [Hne H']. unfold ids in *. apply in_map_iff in H' as [x [<- Hin]].
        apply in_map_iff. exists x. split; [reflexivity|]. apply Hx. auto.
      + apply om_update_done in Hf as [_ [(Hg & _)|(old & _ & -> & _)]].
        * apply get_by_id_none in Hg. contradiction.
        * rewrite replace_by_id_map by exact Hm. rewrite ids_upd by reflexivity. split; [exact Hm|]. intros i H. apply (Hrest i H).
    - destruct Hc as [-> _]. split; [exact Hm|]. intros i H. apply (Hrest i H). }
  destruct K as [K1 K2]. inversion Hn as [|? ? Hx Hy]; subst. rewrite (IH _ _ Hy K1 K2). reflexivity.
Qed.

(** No fill in the report, no pushed id. *)
Lemma no_full c u e l e' :
  fills c u e l e' -> (forall y, ~ In (FullyFilled y) (flat_map (event c u) l)) -> filter (fully c u) l = [].
Proof.
  intros _ H. induction l as [|o l IH]; [reflexivity|]. cbn [filter flat_map] in *. rewrite fully_eq.
  assert (H1 : forall y, ~ In (FullyFilled y) (event c u o)) by (intros y Hy; apply (H y), in_or_app; auto).
  rewrite event_eq in H1. destruct (fillq c u o) as [q|].
  - unfold fill_event in H1. destruct (q =? lo_rem o).
    + exfalso. eapply H1. left. reflexivity.
    + apply IH. intros y Hy. apply (H y), in_or_app; auto.
  - apply IH. intros y Hy. apply (H y), in_or_app; auto.
Qed.

Lemma clone_debug c x r x1 l :
  0 < c_max c <= 10000 -> c_dbg c = true -> x_reachable c x -> can_trade r ->
  x_call c x (OpUpdate r) = Done (x1, Ok (OutUpdates l)) -> (forall y, ~ In (FullyFilled y) l) ->
  x_call c (x_clone x) (OpUpdate r) = Panic PIdsCapacityDebug.
Proof.
  intros Hm Hd R Ht H Hl. assert (Hm' : 0 <= c_max c <= 10000) by lia. pose proof (reachable_xinv _ _ Hm' R) as X. pose proof X as [I _ _].
  cbn [x_call x_clone x_ex x_caps] in *. cbv zeta in *. apply bind_done in H as [u [Hu H]]. rewrite Hu. cbn [bind].
  assert (Hc : can_fill u = true).
  { destruct r; cbn [build_update can_trade] in *; [contradiction|injection Hu as <-; reflexivity..|].
    apply bind_done in Hu as [sc [_ Hu]]. injection Hu as <-. reflexivity. }
  apply bind_done in H as [[[e1 k1] res] [H E]]. injection E as <- Hres. unfold x_update in *.
  apply bind_done in H as [ms [Hms H]]. rewrite Hms. cbn [bind]. cbv zeta in *.
  set (e2 := set_trk (set_ms (x_ex x) ms) _) in *. destruct (should_trigger (ex_trig e2) (update_ts u)) as [trig fire].
  set (e4 := if fire then _ else _) in *.
  assert (A4 : ex_active e4 = ex_active (x_ex x) /\ ex_om e4 = ex_om (x_ex x)) by (unfold e4, e2; destruct fire; split; reflexivity).
  destruct (check_maintenance_margin c (ms_bid (ex_ms e4)) (ms_ask (ex_ms e4)) (ex_pos e4)).
  2:{ apply bind_done in H as [? [_ H]]. injection H as <- <- <-. discriminate. }
  apply bind_done in H as [[e5 k5] [H E]]. injection E as <- <- <-. cbn [map_result] in Hres. injection Hres as <-.
  unfold x_check in *. cbv zeta in *. rewrite Hc in *. cbn [negb] in *.
  apply bind_done in H as [? [H0 H]]. rewrite H0. cbn [bind].
  apply bind_done in H as [[[e6 is] arena] [H1 H]]. cbn [cap_tracked].
  pose proof (fill_loop_spec _ _ _ _ _ _ _ _ H1) as (Hf & Hfs & -> & Hids).
  apply bind_done in H as [act [H2 H]].
  assert (Hup : ex_updates e5 = flat_map (event (with_max c (cap_tracked (x_caps x))) u) (ex_active e4)).
  { do 5 (apply bind_done in H as [? [_ H]]). injection H as <- _. cbn [set_active ex_updates].
    destruct (fills_stable _ _ _ _ _ Hfs) as (_ & _ & _ & _ & ->). reflexivity. }
  rewrite Hup in Hl. cbn [set_updates ex_active] in Hids, Hfs. pose proof (no_full _ _ _ _ _ Hfs Hl) as Hn. rewrite Hn in Hids. cbn in Hids. subst is.
  destruct A4 as [A4 O4]. rewrite (inv_books _ _ I) in O4. rewrite <- A4 in O4.
  rewrite (fill_loop_cap _ (cap_tracked (x_caps x))); cbn [set_updates ex_active ex_om].
  - cbn [set_updates ex_active] in H1, H2. rewrite H1. cbn [bind]. rewrite H2. cbn [bind length cap_ids pushed_cap]. rewrite Hd.
    destruct (Z.eqb_spec 0 (c_max c)); [lia|]. reflexivity.
  - rewrite A4. apply (inv_nodup _ _ I).
  - rewrite O4, A4. apply (inv_nodup _ _ I).
  - rewrite O4. auto.
Qed.

(** Without room, the vector of ids grows to the next power of two. *)
Lemma grown_S n : push_cap (grown n) (Z.of_nat n) = grown (S n).
Proof.
  unfold push_cap, grown. destruct n as [|n]; [reflexivity|]. cbn [Nat.eqb]. set (a := Z.of_nat (S n)). assert (A : 1 <= a) by (unfold a; lia).
  replace (Z.of_nat (S (S n))) with (a + 1) by (unfold a; lia). clearbody a. clear n.
  assert (P : 2 ^ Z.log2_up 4 = 4) by reflexivity.
  destruct (Z.le_gt_cases (a + 1) 4) as [S|L].
  { assert (M : 2 ^ Z.log2_up a <= 4) by (rewrite <- P; apply Z.pow_le_mono_r; [lia|apply Z.log2_up_le_mono; lia]).
    assert (M' : 2 ^ Z.log2_up (a + 1) <= 4) by (rewrite <- P; apply Z.pow_le_mono_r; [lia|apply Z.log2_up_le_mono; lia]).
    destruct (Z.ltb_spec a (Z.max 4 (2 ^ Z.log2_up a))); lia. }
  pose proof (Z.log2_up_spec a ltac:(lia)) as [B1 B2]. pose proof (Z.log2_up_spec (a + 1) ltac:(lia)) as [C1 C2].
  set (k := Z.log2_up a) in *. set (k' := Z.log2_up (a + 1)) in *.
  assert (K : 2 <= k) by (apply (Z.log2_up_le_mono 4 a); lia).
  assert (K' : 3 <= k') by (apply (Z.log2_up_le_mono 5 (a + 1)); lia).
  assert (KK : k <= k') by (apply Z.log2_up_le_mono; lia).
  assert (F : 4 <= 2 ^ k) by (apply (Z.pow_le_mono_r 2 2 k); lia).
  assert (F' : 4 <= 2 ^ k') by (apply (Z.pow_le_mono_r 2 2 k'); lia).
  rewrite (Z.max_r 4 (2 ^ k)), (Z.max_r 4 (2 ^ k')) by assumption.
  destruct (Z.ltb_spec a (2 ^ k)) as [D|D].
  - f_equal. assert (~ k < k'); [|lia]. intros X. assert (2 ^ k <= 2 ^ Z.pred k') by (apply Z.pow_le_mono_r; lia). lia.
  - assert (E : a = 2 ^ k) by lia. assert (N : k' = k + 1).
    { assert (k' <= k + 1); [|assert (k <> k'); [|lia]].
      - apply Z.log2_up_le_pow2; [lia|]. rewrite Z.pow_add_r by lia. lia.
      - intros X. rewrite <- X in C2. lia. }
    rewrite N, Z.pow_add_r by lia. lia.
Qed.
Lemma pushed_grown n : pushed_cap 0 n = grown n.
Proof. induction n as [|n IH]; [reflexivity|]. cbn [pushed_cap]. rewrite IH. apply grown_S. Qed.

Lemma completed_full c u l : completed (flat_map (event c u) l) = length (filter (fully c u) l).
Proof.
  unfold completed. induction l as [|o l IH]; [reflexivity|]. cbn [filter flat_map]. rewrite filter_app, app_length, IH, fully_eq, event_eq.
  destruct (fillq c u o) as [q|]; [|reflexivity]. unfold fill_event. destruct (q =? lo_rem o); reflexivity.
Qed.

Lemma clone_debug_exact c x r x1 l :
  0 <= c_max c <= 10000 -> c_dbg c = true -> x_reachable c x -> can_trade r ->
  x_call c x (OpUpdate r) = Done (x1, Ok (OutUpdates l)) ->
  seen (x_call c (x_clone x) (OpUpdate r)) =
    if grown (completed l) =? c_max c then Done (x_ex x1, Ok (OutUpdates l)) else Panic PIdsCapacityDebug.
Proof.
  intros Hm Hd R Ht H. pose proof (reachable_xinv _ _ Hm R) as X. pose proof X as [I _ _].
  cbn [x_call x_clone x_ex x_caps] in *. cbv zeta in *. apply bind_done in H as [u [Hu H]]. rewrite Hu. cbn [bind].
  assert (Hc : can_fill u = true).
  { destruct r; cbn [build_update can_trade] in *; [contradiction|injection Hu as <-; reflexivity..|].
    apply bind_done in Hu as [sc [_ Hu]]. injection Hu as <-. reflexivity. }
  apply bind_done in H as [[[e1 k1] res] [H E]]. injection E as <- Hres. unfold x_update in *.
  apply bind_done in H as [ms [Hms H]]. rewrite Hms. cbn [bind]. cbv zeta in *.
  set (e2 := set_trk (set_ms (x_ex x) ms) _) in *. destruct (should_trigger (ex_trig e2) (update_ts u)) as [trig fire].
  set (e4 := if fire then _ else _) in *.
  assert (A4 : ex_active e4 = ex_active (x_ex x) /\ ex_om e4 = ex_om (x_ex x)) by (unfold e4, e2; destruct fire; split; reflexivity).
  destruct (check_maintenance_margin c (ms_bid (ex_ms e4)) (ms_ask (ex_ms e4)) (ex_pos e4)).
  2:{ apply bind_done in H as [? [_ H]]. injection H as <- <- <-. discriminate. }
  apply bind_done in H as [[e5 k5] [H E]]. injection E as <- <- <-. cbn [map_result] in Hres. injection Hres as <-.
  unfold x_check in *. cbv zeta in *. rewrite Hc in *. cbn [negb] in *.
  apply bind_done in H as [? [H0 H]]. rewrite H0. cbn [bind].
  apply bind_done in H as [[[e6 is] arena] [H1 H]]. cbn [cap_tracked].
  pose proof (fill_loop_spec _ _ _ _ _ _ _ _ H1) as (Hf & Hfs & Harena & Hids).
  apply bind_done in H as [act [H2 H]].
  assert (Hup : ex_updates e5 = flat_map (event (with_max c (cap_tracked (x_caps x))) u) (ex_active e4)).
  { do 5 (apply bind_done in H as [? [_ H]]). injection H as <- _. cbn [set_active ex_updates].
    destruct (fills_stable _ _ _ _ _ Hfs) as (_ & _ & _ & _ & ->). reflexivity. }
  assert (Hn : completed (ex_updates e5) = length is).
  { rewrite Hup, completed_full, Hids. cbn [app set_updates ex_active]. rewrite map_length. reflexivity. }
  destruct A4 as [A4 O4]. rewrite (inv_books _ _ I) in O4. rewrite <- A4 in O4.
  rewrite (fill_loop_cap _ (cap_tracked (x_caps x))); cbn [set_updates ex_active ex_om].
  - cbn [set_updates ex_active] in H1, H2. rewrite H1. cbn [bind]. rewrite H2. cbn [bind length cap_ids cap_arena cap_tracked]. rewrite pushed_grown, Hn, Hd.
    destruct (grown (length is) =? c_max c); [|reflexivity]. change (debug_assert true true PIdsCapacityDebug) with (@Done unit tt). cbn [bind].
    apply bind_done in H as [? [_ H]]. rewrite Hd in H.
    apply bind_done in H as [? [H3 H]]. rewrite H3. cbn [bind].
    apply bind_done in H as [? [H4 H]]. rewrite H4. cbn [bind].
    apply bind_done in H as [? [H5 H]]. rewrite H5. cbn [bind].
    apply bind_done in H as [? [H6 H]]. rewrite H6. cbn [bind]. injection H as <- _. reflexivity.
  - rewrite A4. apply (inv_nodup _ _ I).
  - rewrite O4, A4. apply (inv_nodup _ _ I).
  - rewrite O4. auto.
Qed.

Lemma run_done c ops : forall x x' outs,
  c_max c <= 10000 -> XInv c x -> x_run c x (map XCall ops) = Done (x', outs) ->
  run (with_max c (room x)) (x_ex x) ops = Done (x_ex x', outs).
Proof.
  induction ops as [|o ops IH]; intros x x' outs Hm X H; cbn [map x_run run] in *.
  - injection H as <- <-. reflexivity.
  - apply bind_done in H as [[x1 r] [H1 H]]. apply bind_done in H as [[x2 rs] [H2 H]]. injection H as <- <-.
    pose proof (x_call_done _ _ _ _ _ Hm X H1) as (-> & _ & Er & _). cbn [bind].
    pose proof (IH _ _ _ Hm (x_call_inv _ _ _ _ _ Hm X H1) H2) as E. rewrite Er in E. rewrite E. reflexivity.
Qed.

Lemma clone_done c x ops x' outs :
  0 <= c_max c <= 10000 -> x_reachable c x -> x_run c (x_clone x) (map XCall ops) = Done (x', outs) ->
  run (with_max c (resting x)) (x_ex x) ops = Done (x_ex x', outs).
Proof.
  intros Hm R H. destruct (clone_inv _ _ (reachable_xinv _ _ Hm R)) as (X & Er & _).
  rewrite <- Er. apply (run_done _ _ _ _ _ (proj2 Hm) X H).
Qed.

Lemma rooms c :
  (forall x, x_init c = Done x -> x_caps x = {| cap_arena := 10000; cap_tracked := c_max c; cap_ids := c_max c |}) /\
  (forall x, 0 <= c_max c <= 10000 -> x_reachable c x ->
     x_caps (x_clone x) = {| cap_arena := resting x; cap_tracked := resting x; cap_ids := 0 |}).
Proof.
  split.
  - intros x H. unfold x_init in H. apply bind_done in H as [e [_ H]]. injection H as <-. reflexivity.
  - intros x Hm R. destruct (reachable_xinv c x Hm R) as [I _ _]. unfold x_clone, resting. cbn [x_caps]. rewrite (inv_books _ _ I). reflexivity.
Qed.
