(** The tracker does not influence trading. *)
From Verif Require Import ProofBase SpecBuild.

Definition rel {A} (R : A -> A -> Prop) (m m' : outcome A) : Prop :=
  match m, m' with Done a, Done a' => R a a' | Panic p, Panic p' => p' = p | _, _ => False end.
Lemma rel_bind {A B} (R : A -> A -> Prop) (S : B -> B -> Prop) m m' k k' :
  rel R m m' -> (forall a a', R a a' -> rel S (k a) (k' a')) -> rel S (bind m k) (bind m' k').
Proof. intros H1 H2. destruct m, m'; cbn in *; try contradiction; [apply H2; exact H1 | exact H1]. Qed.
Lemma rel_same {A B} (S : B -> B -> Prop) (m : outcome A) k k' :
  (forall a, rel S (k a) (k' a)) -> rel S (bind m k) (bind m k').
Proof. intros H. destruct m; cbn; [apply H | reflexivity]. Qed.

(** Equal up to the tracker: states, and states with a result. *)
Definition RE (e e' : exchange) : Prop := exists t, e' = set_trk e t.
Definition RP {A} (x x' : exchange * A) : Prop := RE (fst x) (fst x') /\ snd x' = snd x.
Definition RF {A B} (x x' : exchange * A * B) : Prop := RP (fst x) (fst x') /\ snd x' = snd x.

Lemma RE_trading e e' : RE e e' <-> same_trading e e'.
Proof.
  split; [intros [t ->]; unfold same_trading; cbn; tauto|]. exists (ex_trk e').
  destruct e, e'. unfold same_trading in H. cbn in H. destruct H as (-> & -> & -> & -> & -> & -> & -> & ->). reflexivity.
Qed.
Lemma RE_build ms t id acc pos act om tg up t' :
  RE (Build_exchange ms t id acc pos act om tg up) (Build_exchange ms t' id acc pos act om tg up).
Proof. exists t'. reflexivity. Qed.

Lemma log_trade_rel c t t' sd p q : rel (fun _ _ => True) (log_trade c t sd p q) (log_trade c t' sd p q).
Proof. unfold log_trade. apply rel_same. intros _. apply rel_same. intros v. exact Logic.I. Qed.

Ltac fields := cbn [set_ms set_trk set_next_id set_acc set_pos set_active set_om set_trig set_updates
  ex_ms ex_trk ex_next_id ex_acc ex_pos ex_active ex_om ex_trig ex_updates computed_order_margin] in *.
Ltac done_rel := first [apply RE_build | split; [apply RE_build | reflexivity] | split; [split; [apply RE_build | reflexivity] | reflexivity]].
Ltac rel1 :=
  match goal with
  | |- rel _ (Done _) (Done _) => done_rel
  | |- rel _ (Panic _) (Panic _) => reflexivity
  | |- rel _ (bind (log_trade _ _ _ _ _) _) (bind (log_trade _ _ _ _ _) _) => eapply rel_bind; [apply log_trade_rel | intros ? ? _]
  | |- rel _ (bind ?m _) (bind ?m _) => apply rel_same; intros ?
  | |- rel _ (bind ?m _) (bind ?m' _) =>
      match type of m with
      | outcome exchange => eapply (rel_bind RE); [|intros [] ? [? ->]]
      | outcome (exchange * _) => eapply (rel_bind RP); [|intros [[] ?] [? ?] [[? H] E]; cbn [fst snd] in H, E; subst]
      end
  | |- rel _ (match ?x with _ => _ end) (match ?x with _ => _ end) => destruct x
  end.
Ltac go := cbv zeta; fields; repeat (rel1; fields).
Ltac open e := destruct e as [ms tk id acc pos act om tg up].

Lemma settle_rel c e t o : rel RE (settle_filled_market_order c e o) (settle_filled_market_order c (set_trk e t) o).
Proof. open e. unfold settle_filled_market_order. go. Qed.
Lemma RE_set_id e e' i : RE e e' -> RE (set_next_id e i) (set_next_id e' i).
Proof. intros [t ->]. exists t. reflexivity. Qed.
Lemma market_rel c e t o : rel RP (submit_market_order c e o) (submit_market_order c (set_trk e t) o).
Proof.
  open e. unfold submit_market_order. go.
  apply (settle_rel c (Build_exchange ms (log_market_order_submission tk) (id + 1) acc pos act om tg up) (log_market_order_submission t)).
Qed.
Lemma liquidate_rel c e t : rel RE (liquidate c e) (liquidate c (set_trk e t)).
Proof.
  unfold liquidate. change (ex_pos (set_trk e t)) with (ex_pos e). apply rel_same. intros o.
  eapply rel_bind; [apply market_rel|]. intros [a r] [a' r'] [H E]. cbn in *. subst r'. destruct r; [exact H | reflexivity].
Qed.
Lemma append_rel c e t o : rel RP (append_limit_order c e o) (append_limit_order c (set_trk e t) o).
Proof. open e. unfold append_limit_order, computed_order_margin. go. Qed.
Lemma submit_rel c e t o : rel RP (submit_limit_order c e o) (submit_limit_order c (set_trk e t) o).
Proof.
  open e. unfold submit_limit_order. go.
  apply (append_rel c (Build_exchange ms (log_limit_order_submission tk) (id + 1) acc pos act om tg up) (log_limit_order_submission t)).
Qed.
Lemma cancel_rel c e t b : rel RP (cancel_limit_order c e b) (cancel_limit_order c (set_trk e t) b).
Proof. open e. unfold cancel_limit_order, computed_order_margin. go. Qed.
Lemma amend_rel c e t i o : rel RP (amend_limit_order c e i o) (amend_limit_order c (set_trk e t) i o).
Proof.
  unfold amend_limit_order. change (ex_active (set_trk e t)) with (ex_active e). change (ex_next_id (set_trk e t)) with (ex_next_id e).
  destruct (get_by_id (ex_active e) i); [|split; [exists t; reflexivity | reflexivity]].
  apply rel_same. intros n. cbv zeta. destruct (_ <=? 0).
  - eapply rel_bind; [apply cancel_rel|]. intros [a r] [a' r'] [H E]. cbn in *. subst r'. destruct r; [split; [exact H | reflexivity] | reflexivity].
  - apply rel_same. intros o'. eapply rel_bind; [apply cancel_rel|]. intros [a r] [a' r'] [H E]. cbn in *. subst r'.
    destruct r; [destruct H as [t' ->]; apply submit_rel | split; [exact H | reflexivity]].
Qed.
Lemma fill_one_rel c u e t ids o : rel RF (fill_one c u e ids o) (fill_one c u (set_trk e t) ids o).
Proof. open e. unfold fill_one, computed_order_margin. go. Qed.
Lemma fill_loop_rel c u : forall l e t ids, rel RF (fill_loop c u e ids l) (fill_loop c u (set_trk e t) ids l).
Proof.
  induction l as [|o l IH]; intros; cbn [fill_loop].
  - split; [split; [exists t; reflexivity | reflexivity] | reflexivity].
  - eapply rel_bind; [apply fill_one_rel|]. intros [[a i] o1] [[a' i'] o1'] [[[t' H] E1] E2]. cbn in *. subst.
    eapply rel_bind; [apply IH|]. intros [[b j] l1] [[b' j'] l1'] [[H E1] E2]. cbn in *. subst. split; [split; [exact H | reflexivity] | reflexivity].
Qed.
Lemma check_rel c e t u : rel RE (check_active_orders c e u) (check_active_orders c (set_trk e t) u).
Proof.
  unfold check_active_orders. change (set_updates (set_trk e t) []) with (set_trk (set_updates e []) t).
  set (e0 := set_updates e []). clearbody e0. destruct (negb (can_fill u)); [exists t; reflexivity|]. cbv zeta.
  apply rel_same. intros _. eapply rel_bind; [apply fill_loop_rel|]. intros [[b j] l1] [[b' j'] l1'] [[[t' H] E1] E2]. cbn in *. subst.
  apply rel_same. intros act1. destruct b. unfold computed_order_margin. go.
Qed.
Lemma update_rel c e t u : rel RP (update_state c e u) (update_state c (set_trk e t) u).
Proof.
  open e. unfold update_state. fields. apply rel_same. intros m. cbv zeta. fields. destruct (should_trigger tg (update_ts u)) as [tr fire].
  fields. set (x := if fire then _ else _). set (x' := if fire then _ else _).
  assert (H : RE x x') by (subst x x'; destruct fire; apply RE_build).
  destruct H as [t' ->]. clearbody x. cbn [ex_ms set_trk ex_pos].
  destruct (check_maintenance_margin _ _ _ _).
  - eapply rel_bind; [apply check_rel|]. intros x1 x2 [t1 ->]. split; [exists t1; reflexivity | reflexivity].
  - eapply rel_bind; [apply liquidate_rel|]. intros x1 x2 [t1 ->]. split; [exists t1; reflexivity | reflexivity].
Qed.
Lemma map_rel {E A B} (f : A -> B) (m m' : outcome (exchange * result E A)) : rel RP m m' -> rel RP (map_out f m) (map_out f m').
Proof. intros H. eapply rel_bind; [exact H|]. intros [a r] [a' r'] [H1 H2]. cbn in *. subst. split; [exact H1 | reflexivity]. Qed.
Lemma step_rel c e t o : rel RP (step c e o) (step c (set_trk e t) o).
Proof.
  unfold step. destruct o as [ru|sd q uid|sd p q uid|b|i sd p q uid|ru].
  - apply rel_same. intros u. apply map_rel, update_rel.
  - destruct (market_new sd q uid); [apply map_rel, market_rel | split; [exists t; reflexivity | reflexivity]].
  - destruct (limit_new sd p q uid); [apply map_rel, submit_rel | split; [exists t; reflexivity | reflexivity]].
  - apply map_rel, cancel_rel.
  - destruct (limit_new sd p q uid); [apply map_rel, amend_rel | split; [exists t; reflexivity | reflexivity]].
  - apply rel_same. intros u. eapply rel_bind; [apply check_rel|]. intros a a' H. split; [exact H | reflexivity].
Qed.
Lemma run_rel c : forall ops e t, rel RP (run c e ops) (run c (set_trk e t) ops).
Proof.
  induction ops as [|o ops IH]; intros; cbn [run].
  - split; [exists t; reflexivity | reflexivity].
  - eapply rel_bind; [apply step_rel|]. intros [a r] [a' r'] [[t' H] E]. cbn in *. subst.
    eapply rel_bind; [apply IH|]. intros [b j] [b' j'] [H E]. cbn in *. subst. split; [exact H | reflexivity].
Qed.
Lemma rel_outcome {A} (m m' : outcome (exchange * A)) : rel RP m m' -> same_outcome m m'.
Proof. unfold same_outcome. destruct m as [[]|], m' as [[]|]; cbn; intros H; try exact H. destruct H as [H E]. split; [apply RE_trading; exact H | exact E]. Qed.
Lemma tracker_inert c e e' ops : same_trading e e' -> same_outcome (run c e ops) (run c e' ops).
Proof. intros H. apply RE_trading in H as [t ->]. apply rel_outcome, run_rel. Qed.
