(** Without a tracker the exchange does the same. *)
From Verif Require Import ProofBase Untracked SpecQuiet.

Definition hrel {A B} (R : A -> B -> Prop) (m : outcome A) (m' : outcome B) : Prop :=
  match m, m' with Done a, Done a' => R a a' | Panic p, Panic p' => p' = p | _, _ => False end.
Lemma hrel_bind {A A' B B'} (R : A -> A' -> Prop) (S : B -> B' -> Prop) m m' k k' :
  hrel R m m' -> (forall a a', R a a' -> hrel S (k a) (k' a')) -> hrel S (bind m k) (bind m' k').
Proof. intros H1 H2. destruct m, m'; cbn in *; try contradiction; [apply H2; exact H1 | exact H1]. Qed.
Lemma hrel_same {A B B'} (S : B -> B' -> Prop) (m : outcome A) k k' :
  (forall a, m = Done a -> hrel S (k a) (k' a)) -> hrel S (bind m k) (bind m k').
Proof. intros H. destruct m; cbn; [apply H; reflexivity | reflexivity]. Qed.

Definition QE (e : exchange) (q : quiet) : Prop := q = erase e.
Definition QP {A} (x : exchange * A) (x' : quiet * A) : Prop := QE (fst x) (fst x') /\ snd x' = snd x.
Definition QF {A B} (x : exchange * A * B) (x' : quiet * A * B) : Prop := QP (fst x) (fst x') /\ snd x' = snd x.

(** [log_trade] succeeds once the quantity is positive and the value has been computed. *)
Lemma log_trade_total c t sd p q v : 0 < q -> convert_from (c_kind c) (c_scale c) q p = Done v -> exists t', log_trade c t sd p q = Done t'.
Proof. intros H1 H2. unfold log_trade. rewrite H2. destruct (Z.ltb_spec 0 q); [|lia]. cbn. eauto. Qed.

Ltac qfields := cbn [erase put_ms put_next_id put_acc put_pos put_active put_om put_trig put_updates
  qx_ms qx_next_id qx_acc qx_pos qx_active qx_om qx_trig qx_updates q_computed_order_margin
  set_ms set_trk set_next_id set_acc set_pos set_active set_om set_trig set_updates
  ex_ms ex_trk ex_next_id ex_acc ex_pos ex_active ex_om ex_trig ex_updates computed_order_margin] in *.
Ltac done_q := first [reflexivity | split; reflexivity | split; [split; reflexivity | reflexivity]].
Ltac q1 :=
  match goal with
  | |- hrel _ (Done _) (Done _) => done_q
  | |- hrel _ (Panic _) (Panic _) => reflexivity
  | |- hrel _ (bind ?m _) (bind ?m _) => apply hrel_same; intros ? ?
  | |- hrel _ (bind ?m _) (bind ?m' _) =>
      match type of m with
      | outcome exchange => eapply (hrel_bind QE); [|let HX := fresh "HX" in intros [] ? HX; unfold QE in HX; subst]
      | outcome (exchange * _) => eapply (hrel_bind QP); [|let HX := fresh "HX" in let EX := fresh "EX" in intros [[] ?] [? ?] [HX EX]; cbn [fst snd] in HX, EX; unfold QE in HX; subst]
      end
  | H : convert_from _ _ ?q ?p = Done _, H' : assert (0 <? ?q) _ = Done _ |- hrel _ (bind (log_trade ?c ?t ?sd ?p ?q) _) _ =>
      let t' := fresh "t'" in let L := fresh "L" in
      destruct (log_trade_total c t sd p q _ ltac:(destruct (Z.ltb_spec 0 q); [assumption | discriminate H']) H) as [t' L];
      rewrite L; cbn [bind]
  | |- hrel _ (match ?x with _ => _ end) (match ?x with _ => _ end) => destruct x
  end.
Ltac qgo := cbv zeta; qfields; repeat (q1; qfields).
Ltac qopen e := destruct e as [ms tk id acc pos act om tg up].

Lemma q_settle c e o : hrel QE (settle_filled_market_order c e o) (q_settle_filled_market_order c (erase e) o).
Proof. qopen e. unfold settle_filled_market_order, q_settle_filled_market_order. qgo. Qed.
Lemma q_market c e o : hrel QP (submit_market_order c e o) (q_submit_market_order c (erase e) o).
Proof.
  qopen e. unfold submit_market_order, q_submit_market_order. qgo.
  apply (q_settle c (Build_exchange ms (log_market_order_submission tk) (id + 1) acc pos act om tg up)).
Qed.
Lemma q_liq c e : hrel QE (liquidate c e) (q_liquidate c (erase e)).
Proof.
  unfold liquidate, q_liquidate. change (qx_pos (erase e)) with (ex_pos e). apply hrel_same. intros o _.
  eapply hrel_bind; [apply q_market|]. intros [a r] [a' r'] [H E]. cbn in *. subst r'. destruct r; [exact H | reflexivity].
Qed.
Lemma q_append c e o : hrel QP (append_limit_order c e o) (q_append_limit_order c (erase e) o).
Proof. qopen e. unfold append_limit_order, q_append_limit_order, computed_order_margin, q_computed_order_margin. qgo. Qed.
Lemma q_submit c e o : hrel QP (submit_limit_order c e o) (q_submit_limit_order c (erase e) o).
Proof.
  qopen e. unfold submit_limit_order, q_submit_limit_order. qgo.
  apply (q_append c (Build_exchange ms (log_limit_order_submission tk) (id + 1) acc pos act om tg up)).
Qed.
Lemma q_cancel c e b : hrel QP (cancel_limit_order c e b) (q_cancel_limit_order c (erase e) b).
Proof. qopen e. unfold cancel_limit_order, q_cancel_limit_order, computed_order_margin, q_computed_order_margin. qgo. Qed.
Lemma q_amend c e i o : hrel QP (amend_limit_order c e i o) (q_amend_limit_order c (erase e) i o).
Proof.
  unfold amend_limit_order, q_amend_limit_order. change (qx_active (erase e)) with (ex_active e). change (qx_next_id (erase e)) with (ex_next_id e).
  destruct (get_by_id (ex_active e) i); [|done_q]. apply hrel_same. intros n _. cbv zeta. destruct (_ <=? 0).
  - eapply hrel_bind; [apply q_cancel|]. intros [a r] [a' r'] [H E]. cbn in *. subst r'. destruct r; [split; [exact H | reflexivity] | reflexivity].
  - apply hrel_same. intros o' _. eapply hrel_bind; [apply q_cancel|]. intros [a r] [a' r'] [H E]. cbn in *. subst r'.
    destruct r; [rewrite H; apply q_submit | split; [exact H | reflexivity]].
Qed.
Lemma q_fill c u e ids o : hrel QF (fill_one c u e ids o) (q_fill_one c u (erase e) ids o).
Proof.
  qopen e. unfold fill_one, q_fill_one, computed_order_margin, q_computed_order_margin. cbv zeta. qfields.
  apply hrel_same. intros f Hf. destruct f as [q|]; [|done_q]. do 2 (apply hrel_same; intros ? _).
  apply hrel_same. intros [o' fl] Ho.
  assert (Hq : assert (0 <? q) PFillNonPos = Done tt).
  { unfold order_fill in Ho. apply bind_done in Ho as [? [_ Ho]]. apply bind_done in Ho as [[] [Ho _]]. exact Ho. }
  assert (Hp : lo_price o' = lo_price o).
  { unfold order_fill in Ho. apply bind_done in Ho as [? [_ Ho]]. apply bind_done in Ho as [? [_ Ho]]. destruct (lo_filled o).
    - destruct (_ =? _); injection Ho as <- _; reflexivity.
    - apply bind_done in Ho as [? [_ Ho]]. destruct (_ =? _); injection Ho as <- _; reflexivity. }
  clear Ho. qgo.
Qed.
Lemma q_loop c u : forall l e ids, hrel QF (fill_loop c u e ids l) (q_fill_loop c u (erase e) ids l).
Proof.
  induction l as [|o l IH]; intros; cbn [fill_loop q_fill_loop]; [done_q|].
  eapply hrel_bind; [apply q_fill|]. intros [[a i] o1] [[a' i'] o1'] [[H E1] E2]. cbn in *. subst. rewrite H.
  eapply hrel_bind; [apply IH|]. intros [[b j] l1] [[b' j'] l1'] [[H' E1] E2]. cbn in *. subst. split; [split; [exact H' | reflexivity] | reflexivity].
Qed.
Lemma q_check c e u : hrel QE (check_active_orders c e u) (q_check_active_orders c (erase e) u).
Proof.
  unfold check_active_orders, q_check_active_orders. change (put_updates (erase e) []) with (erase (set_updates e [])).
  set (e0 := set_updates e []). clearbody e0. destruct (negb (can_fill u)); [reflexivity|]. cbv zeta.
  apply hrel_same. intros _ _. eapply hrel_bind; [apply q_loop|]. intros [[b j] l1] [[b' j'] l1'] [[H E1] E2]. cbn in *. subst. rewrite H.
  apply hrel_same. intros act1 _. destruct b. unfold computed_order_margin, q_computed_order_margin. qgo.
Qed.
Lemma q_update c e u : hrel QP (update_state c e u) (q_update_state c (erase e) u).
Proof.
  qopen e. unfold update_state, q_update_state. qfields. apply hrel_same. intros m _. cbv zeta. qfields.
  destruct (should_trigger tg (update_ts u)) as [tr fire]. qfields. set (x := if fire then set_trk _ _ else _). set (x' := if fire then _ else _).
  assert (H : x' = erase x) by (subst x x'; destruct fire; reflexivity). rewrite H. clearbody x. clear x' H. cbn [ex_ms erase qx_ms qx_pos].
  destruct (check_maintenance_margin _ _ _ _).
  - eapply hrel_bind; [apply q_check|]. intros x1 x2 ->. done_q.
  - eapply hrel_bind; [apply q_liq|]. intros x1 x2 ->. done_q.
Qed.
Lemma q_map {E A B} (f : A -> B) (m : outcome (exchange * result E A)) m' : hrel QP m m' -> hrel QP (map_out f m) (map_out f m').
Proof. intros H. eapply hrel_bind; [exact H|]. intros [a r] [a' r'] [H1 H2]. cbn in *. subst. split; [exact H1 | reflexivity]. Qed.
Lemma q_step_rel c e o : hrel QP (step c e o) (q_step c (erase e) o).
Proof.
  unfold step, q_step. destruct o as [ru|sd q uid|sd p q uid|b|i sd p q uid|ru].
  - apply hrel_same. intros u _. apply q_map, q_update.
  - destruct (market_new sd q uid); [apply q_map, q_market | done_q].
  - destruct (limit_new sd p q uid); [apply q_map, q_submit | done_q].
  - apply q_map, q_cancel.
  - destruct (limit_new sd p q uid); [apply q_map, q_amend | done_q].
  - apply hrel_same. intros u _. eapply hrel_bind; [apply q_check|]. intros a a' H. split; [exact H | reflexivity].
Qed.
Lemma q_run_rel c : forall ops e, hrel QP (run c e ops) (q_run c (erase e) ops).
Proof.
  induction ops as [|o ops IH]; intros; cbn [run q_run]; [done_q|].
  eapply hrel_bind; [apply q_step_rel|]. intros [a r] [a' r'] [H E]. cbn in *. subst. rewrite H.
  eapply hrel_bind; [apply IH|]. intros [b j] [b' j'] [H' E]. cbn in *. subst. split; [exact H' | reflexivity].
Qed.
Lemma hrel_erased {A} (m : outcome (exchange * A)) m' : hrel QP m m' -> m' = erased m.
Proof. destruct m as [[e a]|p], m' as [[e' a']|p']; cbn; intros H; try contradiction; [destruct H as [H1 H2]; unfold QE in H1; cbn in H1, H2; subst; reflexivity | rewrite H; reflexivity]. Qed.

Lemma untracked_run c e ops : q_run c (erase e) ops = erased (run c e ops).
Proof. apply hrel_erased, q_run_rel. Qed.
Lemma untracked_step c e o : q_step c (erase e) o = erased (step c e o).
Proof. apply hrel_erased, q_step_rel. Qed.
Lemma untracked_init c : 0 < c_start c -> q_init c = match init c with Done e => Done (erase e) | Panic p => Panic p end.
Proof.
  intros H. unfold init, q_init, tracker_new, exchange_new, q_exchange_new. destruct (Z.ltb_spec 0 (c_start c)); [|lia]. cbn [assert bind].
  destruct (accounting_new _ _); reflexivity.
Qed.
Lemma untracked_views e : q_balances (erase e) = balances e /\ q_fees_paid (erase e) = fees_paid e.
Proof. split; reflexivity. Qed.
