(** The full tracker and the empty one as instances of the exchange with any tracker. *)
From Verif Require Import ProofBase Untracked SpecQuiet UntrackedProof Tracked SpecTracked TrackedProof.

Definition TE (e : exchange) (x : tracker * quiet) : Prop := x = (ex_trk e, erase e).
Definition TP {A} (x : exchange * A) (y : tracker * (quiet * A)) : Prop := y = (ex_trk (fst x), (erase (fst x), snd x)).
Definition TF {A B} (x : exchange * A * B) (y : tracker * (quiet * A * B)) : Prop :=
  y = (ex_trk (fst (fst x)), (erase (fst (fst x)), snd (fst x), snd x)).

Lemma f_lift {A B B'} (S : B -> tracker * B' -> Prop) (m : outcome A) k k' t :
  (forall a, m = Done a -> hrel S (k a) (k' a t)) -> hrel S (bind m k) (tbind (tlift m) k' t).
Proof. intros H. unfold tbind, tlift. destruct m; cbn; [apply H; reflexivity | reflexivity]. Qed.
Lemma f_bind {A A' B B'} (R : A -> tracker * A' -> Prop) (S : B -> tracker * B' -> Prop) m f k k' t :
  hrel R m (f t) -> (forall a t1 a', R a (t1, a') -> hrel S (k a) (k' a' t1)) -> hrel S (bind m k) (tbind f k' t).
Proof. intros H1 H2. apply (hrel_bind R); [exact H1|]. intros a [t1 a']. apply H2. Qed.
Lemma f_trade {B B'} (S : B -> tracker * B' -> Prop) c sd p q t k k' :
  (forall t1, log_trade c t sd p q = Done t1 -> hrel S (k t1) (k' tt t1)) ->
  hrel S (bind (log_trade c t sd p q) k) (tbind (tell (full_tracker c) (EvTrade sd p q)) k' t).
Proof. intros H. unfold tbind, tell. cbn [full_tracker]. destruct (log_trade c t sd p q); cbn; [apply H; reflexivity | reflexivity]. Qed.
Lemma f_tell {B B'} (S : B -> tracker * B' -> Prop) c ev m k' t t' :
  full_tracker c t ev = Done t' -> hrel S m (k' tt t') -> hrel S m (tbind (tell (full_tracker c) ev) k' t).
Proof. intros H1 H2. unfold tbind, tell. rewrite H1. exact H2. Qed.

Lemma f_pre {B B'} (S : B -> tracker * B' -> Prop) m (f : tm unit) k' t t' :
  f t = Done (t', tt) -> hrel S m (k' tt t') -> hrel S m (tbind f k' t).
Proof. intros H1 H2. unfold tbind. rewrite H1. exact H2. Qed.
Lemma f_lift2 {A B B'} (S : B -> tracker * B' -> Prop) (m : outcome A) k k' t :
  (forall a, m = Done a -> hrel S (k a) (tlift (k' a) t)) -> hrel S (bind m k) (tlift (bind m k') t).
Proof. intros H. unfold tlift in *. destruct m; cbn; [apply H; reflexivity | reflexivity]. Qed.

Ltac f1 :=
  match goal with
  | |- hrel _ (bind (log_trade _ _ _ _ _) _) (tbind (tell _ (EvTrade _ _ _)) _ _) => apply f_trade; intros ? ?
  | |- hrel _ (bind ?m _) (tbind (tlift ?m) _ _) => apply f_lift; let a' := fresh "a" in intros a' ?; open_it a'; cbv beta iota
  | |- hrel _ _ (tbind (tell _ ?ev) _ _) => eapply f_tell; [reflexivity|]; cbv beta
  | |- hrel _ (Done _) (tret _ _) => reflexivity
  | |- hrel _ (Done _) (tlift (Done _) _) => reflexivity
  | |- hrel _ (Panic _) (tlift (Panic _) _) => reflexivity
  | |- hrel _ (bind ?m _) (tlift (bind ?m _) _) => apply f_lift2; intros ? ?
  | |- hrel _ (if ?b then _ else _) (tlift (if ?b then _ else _) _) => destruct b
  | |- hrel _ (bind ?m _) (tbind _ _ _) =>
      match type of m with
      | outcome exchange => eapply (f_bind TE); [|let HX := fresh "HX" in intros [] ? ? HX; injection HX as -> ->]
      | outcome (exchange * _) => eapply (f_bind TP); [|let HX := fresh "HX" in intros [[] ?] ? [? ?] HX; injection HX as -> -> ->]
      end
  | |- hrel _ (match ?x with _ => _ end) (match ?x with _ => _ end _) => destruct x
  end.
Ltac fgo := cbv zeta; qfields; repeat (f1; cbv zeta; qfields).

Lemma f_settle c e o : hrel TE (settle_filled_market_order c e o) (t_settle_filled_market_order (full_tracker c) c (erase e) o (ex_trk e)).
Proof. qopen e. unfold settle_filled_market_order, t_settle_filled_market_order. fgo. Qed.
Lemma f_market c e o : hrel TP (submit_market_order c e o) (t_submit_market_order (full_tracker c) c (erase e) o (ex_trk e)).
Proof.
  qopen e. unfold submit_market_order, t_submit_market_order. fgo.
  apply (f_settle c (Build_exchange ms (log_market_order_submission tk) (id + 1) acc pos act om tg up)).
Qed.
Lemma f_liq c e : hrel TE (liquidate c e) (t_liquidate (full_tracker c) c (erase e) (ex_trk e)).
Proof.
  unfold liquidate, t_liquidate. change (qx_pos (erase e)) with (ex_pos e). apply f_lift. intros o _.
  eapply (f_bind TP); [apply f_market|]. intros [a r] t1 [a' r'] H. injection H as -> -> ->. destruct r; reflexivity.
Qed.
Lemma append_trk c e o e' r : append_limit_order c e o = Done (e', r) -> ex_trk e' = ex_trk e.
Proof.
  unfold append_limit_order. intros H. apply bind_done in H as [[om r0] [_ H]]. destruct r0; [|injection H as <- _; reflexivity].
  cbv zeta in H. destruct (book_insert _ _ _) as [act [|]]; [|injection H as <- _; reflexivity]. apply bind_done in H as [n [_ H]].
  destruct (n ?= _); [injection H as <- _; reflexivity| |]; do 4 apply bind_done in H as [? [_ H]]; injection H as <- _; reflexivity.
Qed.
Lemma f_append c e o : hrel TP (append_limit_order c e o) (tlift (q_append_limit_order c (erase e) o) (ex_trk e)).
Proof.
  pose proof (q_append c e o) as H. unfold tlift.
  destruct (append_limit_order c e o) as [[e1 r]|p] eqn:E, (q_append_limit_order c (erase e) o) as [[q1 r']|p']; cbn in H |- *; try contradiction; [|exact H].
  destruct H as [H1 H2]. cbn in H1, H2. unfold QE in H1. subst. unfold TP. cbn. rewrite (append_trk _ _ _ _ _ E). reflexivity.
Qed.
Lemma f_submit c e o : hrel TP (submit_limit_order c e o) (t_submit_limit_order (full_tracker c) c (erase e) o (ex_trk e)).
Proof.
  qopen e. unfold submit_limit_order, t_submit_limit_order. fgo.
  apply (f_append c (Build_exchange ms (log_limit_order_submission tk) (id + 1) acc pos act om tg up)).
Qed.
Lemma f_cancel c e b : hrel TP (cancel_limit_order c e b) (t_cancel_limit_order (full_tracker c) c (erase e) b (ex_trk e)).
Proof. qopen e. unfold cancel_limit_order, t_cancel_limit_order, computed_order_margin, q_computed_order_margin. fgo. Qed.
Lemma f_amend c e i o : hrel TP (amend_limit_order c e i o) (t_amend_limit_order (full_tracker c) c (erase e) i o (ex_trk e)).
Proof.
  unfold amend_limit_order, t_amend_limit_order. change (qx_active (erase e)) with (ex_active e). change (qx_next_id (erase e)) with (ex_next_id e).
  destruct (get_by_id (ex_active e) i); [|reflexivity]. apply f_lift. intros n _. cbv zeta. destruct (_ <=? 0).
  - eapply (f_bind TP); [apply f_cancel|]. intros [a r] t1 [a' r'] H. injection H as -> -> ->. destruct r; reflexivity.
  - apply f_lift. intros o' _. eapply (f_bind TP); [apply f_cancel|]. intros [a r] t1 [a' r'] H. injection H as -> -> ->.
    destruct r; [apply f_submit | reflexivity].
Qed.
Lemma f_fill c u e ids o : hrel TF (fill_one c u e ids o) (t_fill_one (full_tracker c) c u (erase e) ids o (ex_trk e)).
Proof.
  qopen e. unfold fill_one, t_fill_one, computed_order_margin, q_computed_order_margin. fgo.
Qed.
Lemma f_loop c u : forall l e ids, hrel TF (fill_loop c u e ids l) (t_fill_loop (full_tracker c) c u (erase e) ids l (ex_trk e)).
Proof.
  induction l as [|o l IH]; intros; cbn [fill_loop t_fill_loop]; [reflexivity|].
  eapply (f_bind TF); [apply f_fill|]. intros [[a i] o1] t1 [[a' i'] o1'] H. injection H as -> -> -> ->. cbn [fst snd].
  eapply (f_bind TF); [apply IH|]. intros [[b j] l1] t1 [[b' j'] l1'] H. injection H as -> -> -> ->. reflexivity.
Qed.
Lemma f_check c e u : hrel TE (check_active_orders c e u) (t_check_active_orders (full_tracker c) c (erase e) u (ex_trk e)).
Proof.
  unfold check_active_orders, t_check_active_orders. change (put_updates (erase e) []) with (erase (set_updates e [])).
  change (ex_trk e) with (ex_trk (set_updates e [])). set (e0 := set_updates e []). clearbody e0. destruct (negb (can_fill u)); [reflexivity|]. cbv zeta.
  apply f_lift. intros _ _. eapply (f_bind TF); [apply f_loop|]. intros [[b j] l1] t1 [[b' j'] l1'] H. injection H as -> -> -> ->. cbn [fst snd].
  apply f_lift. intros act1 _. destruct b. unfold computed_order_margin, q_computed_order_margin. fgo.
Qed.
Lemma f_update c e u : hrel TP (update_state c e u) (t_update_state (full_tracker c) c (erase e) u (ex_trk e)).
Proof.
  qopen e. unfold update_state, t_update_state. qfields. apply f_lift. intros m _. cbv zeta. qfields.
  eapply f_tell; [reflexivity|]. cbv beta.
  destruct (should_trigger tg (update_ts u)) as [tr fire]. qfields.
  set (x := if fire then set_trk _ _ else _).
  apply (f_pre TP _ _ _ _ (ex_trk x)); [subst x; destruct fire; reflexivity|]. cbv beta zeta iota. cbn [qx_ms qx_pos put_trig put_ms ex_ms ex_pos].
  assert (H : put_trig (put_ms (erase {| ex_ms := ms; ex_trk := tk; ex_next_id := id; ex_acc := acc; ex_pos := pos; ex_active := act; ex_om := om; ex_trig := tg; ex_updates := up |}) m) tr = erase x) by (subst x; destruct fire; reflexivity).
  rewrite H. assert (Hm : ex_ms x = m) by (subst x; destruct fire; reflexivity). assert (Hp : ex_pos x = pos) by (subst x; destruct fire; reflexivity). rewrite Hm, Hp. clearbody x.
  destruct (check_maintenance_margin _ _ _ _).
  - eapply (f_bind TE); [apply f_check|]. intros x1 t1 x2 E. injection E as -> ->. reflexivity.
  - eapply (f_bind TE); [apply f_liq|]. intros x1 t1 x2 E. injection E as -> ->. reflexivity.
Qed.
Lemma f_map {E A B} (f : A -> B) (m : outcome (exchange * result E A)) m' t : hrel TP m (m' t) -> hrel TP (map_out f m) (tmap_out f m' t).
Proof. intros H. eapply (f_bind TP); [exact H|]. intros [a r] t1 [a' r'] K. injection K as -> -> ->. reflexivity. Qed.
Lemma f_step c e o : hrel TP (step c e o) (t_step (full_tracker c) c (erase e) o (ex_trk e)).
Proof.
  unfold step, t_step. destruct o as [ru|sd q uid|sd p q uid|b|i sd p q uid|ru].
  - apply f_lift. intros u _. apply f_map, f_update.
  - destruct (market_new sd q uid); [apply f_map, f_market | reflexivity].
  - destruct (limit_new sd p q uid); [apply f_map, f_submit | reflexivity].
  - apply f_map, f_cancel.
  - destruct (limit_new sd p q uid); [apply f_map, f_amend | reflexivity].
  - apply f_lift. intros u _. eapply (f_bind TE); [apply f_check|]. intros a t1 a' H. injection H as -> ->. reflexivity.
Qed.
Lemma f_run c : forall ops e, hrel TP (run c e ops) (t_run (full_tracker c) c (erase e) ops (ex_trk e)).
Proof.
  induction ops as [|o ops IH]; intros; cbn [run t_run]; [reflexivity|].
  eapply (f_bind TP); [apply f_step|]. intros [a r] t1 [a' r'] H. injection H as -> -> ->. cbn [fst snd].
  eapply (f_bind TP); [apply IH|]. intros [b j] t1 [b' j'] H. injection H as -> -> ->. reflexivity.
Qed.

Lemma full_run c e ops : t_run (full_tracker c) c (erase e) ops (ex_trk e) =
  match run c e ops with Done (e', outs) => Done (ex_trk e', (erase e', outs)) | Panic p => Panic p end.
Proof.
  pose proof (f_run c ops e) as H. destruct (run c e ops) as [[e' outs]|p], (t_run _ _ _ _ _); cbn in H; try contradiction; rewrite H; reflexivity.
Qed.
Lemma no_panics : never_panics no_tracker.
Proof. intros t ev. exists tt. reflexivity. Qed.
Lemma none_run c e ops : t_run no_tracker c e ops tt =
  match q_run c e ops with Done (e', outs) => Done (tt, (e', outs)) | Panic p => Panic p end.
Proof.
  destruct (q_run c e ops) as [[e' outs]|p] eqn:E.
  - rewrite (told_run _ _ _ _ _ E). destruct (replay_total no_tracker (told_all c e ops) no_panics tt) as [[] ->]. reflexivity.
  - destruct (told_run_panic _ _ _ _ E _ no_tracker tt) as (p' & -> & N). rewrite (N no_panics). reflexivity.
Qed.
(** What the full tracker has recorded is what its methods make of the calls listed. *)
Lemma full_replay c e ops e' outs : run c e ops = Done (e', outs) ->
  replay (full_tracker c) (ex_trk e) (told_all c (erase e) ops) = Done (ex_trk e').
Proof.
  intros H. pose proof (full_run c e ops) as F. rewrite H in F. assert (Q : q_run c (erase e) ops = Done (erase e', outs)) by (rewrite untracked_run, H; reflexivity).
  rewrite (told_run _ _ _ _ _ Q) in F. destruct (replay _ _ _); cbn [bind] in F; [injection F as ->; reflexivity | discriminate].
Qed.

(** ** Both directions *)
Lemma any_step {T} (hook : T -> event -> outcome T) c e o t t' e' r :
  t_step hook c e o t = Done (t', (e', r)) <-> q_step c e o = Done (e', r) /\ replay hook t (told e o r) = Done t'.
Proof.
  split; intros H.
  - destruct (q_step c e o) as [[e1 r1]|p] eqn:E.
    + rewrite (told_step _ _ _ _ _ E) in H. destruct (replay hook t (told e o r1)) as [t1|] eqn:R; [|discriminate].
      injection H as <- <- <-. auto.
    + destruct (told_step_panic _ _ _ _ E _ hook t) as (p' & E' & _). congruence.
  - destruct H as [H1 H2]. rewrite (told_step _ _ _ _ _ H1), H2. reflexivity.
Qed.
Lemma any_run {T} (hook : T -> event -> outcome T) c e ops t t' e' outs :
  t_run hook c e ops t = Done (t', (e', outs)) <-> q_run c e ops = Done (e', outs) /\ replay hook t (told_all c e ops) = Done t'.
Proof.
  split; intros H.
  - destruct (q_run c e ops) as [[e1 r1]|p] eqn:E.
    + rewrite (told_run _ _ _ _ _ E) in H. destruct (replay hook t (told_all c e ops)) as [t1|] eqn:R; [|discriminate].
      injection H as <- <- <-. auto.
    + destruct (told_run_panic _ _ _ _ E _ hook t) as (p' & E' & _). congruence.
  - destruct H as [H1 H2]. rewrite (told_run _ _ _ _ _ H1), H2. reflexivity.
Qed.
Lemma any_panic {T} (hook : T -> event -> outcome T) c e ops t p : never_panics hook ->
  t_run hook c e ops t = Panic p <-> q_run c e ops = Panic p.
Proof.
  intros N. destruct (q_run c e ops) as [[e1 r1]|p1] eqn:E.
  - rewrite (told_run _ _ _ _ _ E). destruct (replay_total hook (told_all c e ops) N t) as [t' ->]. split; discriminate.
  - destruct (told_run_panic _ _ _ _ E _ hook t) as (p' & -> & K). rewrite (K N). split; intros X; injection X as <-; reflexivity.
Qed.
