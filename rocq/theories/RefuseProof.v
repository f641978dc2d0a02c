(** An accounting that fails. *)
From Verif Require Import Base Types Filters Accounting Currency Position OrderBook OrderMargin
  Risk MarketUpdate Tracker Exchange ProofBase FillLemmas Ledger SpecLedger MockProof DecideProof.

Section Refuse.
Context {A : Type} (L : accounting A) (c : config).

Lemma market_error e a sd q uid m err :
  market_new sd q uid = Ok m -> validate_order_quantity (ct_qf (c_spec c)) q = Done (Ok tt) ->
  a_balance L a POSITION_MARGIN = Done (Err err) \/
  (exists v, a_balance L a POSITION_MARGIN = Done (Ok v)) /\ a_balance L a WALLET = Done (Err err) ->
  a_step L c e (OpMarket sd q uid) a =
    Done (a, (set_next_id (set_trk e (log_market_order_submission (ex_trk e))) (ex_next_id e + 1), Err err)).
Proof.
  intros M V H. unfold a_step. rewrite M. unfold market_new in M. destruct (q <=? 0); [discriminate|]. injection M as <-.
  unfold a_out, abind at 1, a_submit_market. cbn [nm_qty]. rewrite V. unfold abind at 1. cbn [alift bind].
  destruct H as [H|[[v H] W]]; unfold abind, ask; rewrite H; cbn [bind]; [reflexivity|]. rewrite W. reflexivity.
Qed.
Lemma limit_error e a sd p q uid o err :
  limit_new sd p q uid = Ok o -> validate_order_quantity (ct_qf (c_spec c)) q = Done (Ok tt) ->
  validate_limit_price (c_scale c) (ct_pf (c_spec c)) p (mid_price (ex_ms e)) = Done (Ok tt) ->
  a_balance L a WALLET = Done (Err err) ->
  a_step L c e (OpLimit sd p q uid) a =
    Done (a, (set_next_id (set_trk e (log_limit_order_submission (ex_trk e))) (ex_next_id e + 1), Err err)).
Proof.
  intros M V P W. unfold a_step. rewrite M. unfold limit_new in M. destruct (p <=? 0); [discriminate|]. destruct (q <=? 0); [discriminate|].
  injection M as <-. unfold a_out, abind at 1, a_submit_limit. cbn [nl_rem nl_price]. rewrite V. unfold abind at 1. cbn [alift bind ex_ms set_trk].
  rewrite P. unfold abind at 1. cbn [alift bind]. unfold abind at 1, ask. rewrite W. reflexivity.
Qed.
Lemma cancel_error e a by_ err : a_balance L a ORDER_MARGIN = Done (Err err) -> a_step L c e (OpCancel by_) a = Panic (a_expect L err).
Proof. intros H. unfold a_step, a_out, a_cancel, bal, ask, abind. rewrite H. reflexivity. Qed.

Hypothesis R : refusing L.
Lemma refuse_pay d k x a y : pay L d k x a <> Done y.
Proof.
  intros H. destruct y as [a' []]. apply lift_bind in H as (tx & _ & H). apply abind_done in H as (a1 & r & H & K). apply R in H.
  destruct r; discriminate.
Qed.
Lemma refuse_change q p sd f a y : a_change_position L c Neutral q p sd f a <> Done y.
Proof.
  intros H. unfold a_change_position in H. apply lift_bind in H as (? & _ & H). apply abind_done in H as (? & ? & _ & H).
  apply abind_done in H as (? & ? & H & _). unfold a_inner_new in H. apply lift_bind in H as (? & _ & H). apply lift_bind in H as (? & _ & H).
  apply lift_bind in H as (? & _ & H). apply abind_done in H as (? & ? & H & _). exact (refuse_pay _ _ _ _ _ H).
Qed.
Lemma refuse_market e m a b e' r : ex_pos e = Neutral -> a_submit_market L c e m a = Done (b, (e', r)) -> ex_pos e' = Neutral /\ okay r = false.
Proof.
  intros P H. apply market_shape in H as (v & _ & H). destruct v as [[]|err].
  2:{ destruct H as [-> H]. split; [exact P | exact H]. }
  destruct r as [f|err]; [|cbn in H; rewrite H; split; [exact P | reflexivity]]. exfalso. destruct H as (-> & a1 & b1 & H). unfold a_settle in H.
  apply lift_bind in H as (? & _ & H). apply lift_bind in H as (? & _ & H). apply lift_bind in H as (? & _ & H).
  apply abind_done in H as (? & ? & H & _). cbn [ex_pos set_next_id set_trk] in H. rewrite P in H. exact (refuse_change _ _ _ _ _ _ H).
Qed.
Lemma refuse_fill_loop u todo : forall e ids a b, ex_pos e = Neutral -> a_fill_loop L c u e ids todo a = Done b -> b = (a, (e, ids, todo)).
Proof.
  induction todo as [|o todo IH]; intros e ids a b P H; cbn in H.
  { injection H as <-. reflexivity. }
  apply abind_done in H as (a1 & [[e1 ids1] o1] & H & K). unfold a_fill_one in H. apply lift_bind in H as (f & _ & H). destruct f as [q|].
  - exfalso. apply lift_bind in H as (? & _ & H). apply abind_done in H as (? & ? & _ & H). apply lift_bind in H as (? & _ & H).
    apply lift_bind in H as ([o' filled] & _ & H). apply lift_bind in H as ([e2 ids2] & E & H). apply lift_bind in H as (? & _ & H).
    apply abind_done in H as (? & ? & H & _).
    assert (P1 : ex_pos e2 = Neutral).
    { destruct filled as [fo|]; [apply bind_done in E as (om' & _ & E); injection E as <- <-; exact P|].
      apply bind_done in E as (? & _ & E). apply bind_done in E as ([om2 res] & _ & E). destruct res; [|discriminate].
      injection E as <- <-. exact P. }
    rewrite P1 in H. exact (refuse_change _ _ _ _ _ _ H).
  - injection H as <- <- <- <-. apply abind_done in K as (a2 & [[e2 ids2] r2] & H & K).
    apply IH in H; [|exact P]. injection H as -> -> -> ->. injection K as <-. reflexivity.
Qed.
Lemma refuse_check e u a b e' : ex_pos e = Neutral -> a_check L c e u a = Done (b, e') -> ex_pos e' = Neutral /\ ex_updates e' = [].
Proof.
  intros P H. unfold a_check in H. destruct (negb (can_fill u)).
  { injection H as <- <-. split; [exact P | reflexivity]. }
  apply lift_bind in H as (? & _ & H). apply abind_done in H as (a1 & [[e1 ids] arena] & H & K).
  apply refuse_fill_loop in H; [|exact P]. injection H as -> -> -> ->. apply lift_bind in K as (act & _ & K).
  apply lift_bind in K as (? & _ & K). apply abind_done in K as (? & ? & _ & K). apply abind_done in K as (? & ? & _ & K).
  apply abind_done in K as (? & ? & _ & K). injection K as <- <-. split; [exact P | reflexivity].
Qed.
Lemma refuse_update e u a b e' r : ex_pos e = Neutral -> a_update L c e u a = Done (b, (e', r)) -> ex_pos e' = Neutral /\ r = Ok [].
Proof.
  intros J H. unfold a_update in H. apply lift_bind in H as (ms & _ & H).
  set (e1 := set_ms e ms) in *. set (e2 := set_trk e1 _) in *. cbv zeta in H.
  destruct (should_trigger (ex_trig e2) (update_ts u)) as [trig fire]. cbv beta iota in H.
  apply abind_done in H as (a1 & e4 & H & K).
  assert (J4 : ex_pos e4 = Neutral).
  { destruct fire; [|injection H as <- <-; exact J]. apply abind_done in H as (? & ? & _ & H). injection H as <- <-. exact J. }
  rewrite J4 in K. cbn [check_maintenance_margin] in K.
  apply abind_done in K as (a2 & e5 & H5 & K). apply refuse_check in H5 as [J5 U]; [|exact J4]. injection K as <- <- <-.
  split; [exact J5|]. rewrite U. reflexivity.
Qed.
Lemma refuse_limit e o a b e' r : a_submit_limit L c e o a = Done (b, (e', r)) -> ex_pos e' = ex_pos e.
Proof.
  intros H. unfold a_submit_limit in H. apply lift_bind in H as ([v|err] & _ & H); [|injection H as <- <- <-; reflexivity].
  apply lift_bind in H as ([w|err] & _ & H); [|injection H as <- <- <-; reflexivity].
  apply abind_done in H as (? & [w'|err] & _ & H); [|injection H as <- <- <-; reflexivity].
  apply lift_bind in H as ([v'|err] & _ & H); [|injection H as <- <- <-; reflexivity].
  destruct (marketable _ _); [injection H as <- <- <-; reflexivity|].
  apply abind_done in H as (a1 & [e3 fin] & H & K).
  assert (X : ex_pos e3 = ex_pos e).
  { unfold a_append in H. apply lift_bind in H as ([om' res] & _ & H). destruct res; [|injection H as <- <- <-; reflexivity].
    destruct (book_insert _ _ _) as [act' [res|err]]; [|injection H as <- <- <-; reflexivity].
    apply lift_bind in H as (nom & _ & H). apply abind_done in H as (? & om & _ & H).
    destruct (nom ?= om); [injection H as <- <- <-; reflexivity| |];
    (apply abind_done in H as (? & ? & _ & H); apply lift_bind in H as (? & _ & H); apply abind_done in H as (? & ? & _ & H);
     apply lift_bind in H as (? & _ & H); apply abind_done in H as (? & ? & _ & H); injection H as <- <- <-; reflexivity). }
  destruct fin; injection K as <- <- <-; exact X.
Qed.
Lemma refuse_cancel e by_ a b e' r : a_cancel L c e by_ a = Done (b, (e', r)) -> ex_pos e' = ex_pos e.
Proof.
  intros H. unfold a_cancel in H. apply abind_done in H as (w0 & old & _ & H). apply lift_bind in H as (w1 & _ & H). apply lift_bind in H as (w2 & _ & H).
  destruct by_ as [id|uid].
  - destruct (remove_by_order_id (ex_active e) id) as [[o act']|]; [|injection H as <- <- <-; reflexivity].
    apply lift_bind in H as (? & _ & H). apply lift_bind in H as (? & _ & H). apply lift_bind in H as (? & _ & H). apply abind_done in H as (? & ? & _ & H).
    apply lift_bind in H as (? & _ & H). apply abind_done in H as (? & ? & _ & H). apply lift_bind in H as (? & _ & H). injection H as <- <- <-. reflexivity.
  - destruct (remove_by_user_order_id (ex_active e) uid) as [[o act']|]; [|injection H as <- <- <-; reflexivity].
    apply lift_bind in H as (? & _ & H). apply lift_bind in H as (? & _ & H). apply lift_bind in H as (? & _ & H). apply abind_done in H as (? & ? & _ & H).
    apply lift_bind in H as (? & _ & H). apply abind_done in H as (? & ? & _ & H). apply lift_bind in H as (? & _ & H). injection H as <- <- <-. reflexivity.
Qed.
Lemma refuse_amend e id o a b e' r : a_amend L c e id o a = Done (b, (e', r)) -> ex_pos e' = ex_pos e.
Proof.
  intros H. unfold a_amend in H. destruct (get_by_id (ex_active e) id) as [ex|]; [|injection H as <- <- <-; reflexivity].
  apply lift_bind in H as (tot & _ & H). destruct (_ <=? 0).
  - apply abind_done in H as (a1 & [e1 x] & H & K). apply refuse_cancel in H. destruct x; [injection K as <- <- <-; exact H | discriminate].
  - apply lift_bind in H as (o' & _ & H). apply abind_done in H as (a1 & [e1 fin] & H & K). apply refuse_cancel in H.
    destruct fin; [|injection K as <- <- <-; exact H]. apply refuse_limit in K. congruence.
Qed.
Lemma refuse_step e o a b e' r : ex_pos e = Neutral -> a_step L c e o a = Done (b, (e', r)) -> ex_pos e' = Neutral /\ quiet r.
Proof.
  intros J H. destruct o as [u|sd q uid|sd p q uid|by_|id sd p q uid|u]; cbn [a_step] in H.
  - apply lift_bind in H as (w & _ & H). apply abind_done in H as (a1 & [e1 x] & H & K). injection K as <- <- <-.
    apply refuse_update in H as [J1 ->]; [|exact J]. split; [exact J1 | reflexivity].
  - destruct (market_new sd q uid) as [m|err]; [|injection H as <- <- <-; split; [exact J | exact I]].
    apply abind_done in H as (a1 & [e1 x] & H & K). injection K as <- <- <-.
    apply refuse_market in H as [J1 O]; [|exact J]. destruct x; [discriminate|]. split; [exact J1 | exact I].
  - destruct (limit_new sd p q uid) as [m|err]; [|injection H as <- <- <-; split; [exact J | exact I]].
    apply abind_done in H as (a1 & [e1 x] & H & K). injection K as <- <- <-. apply refuse_limit in H. split; [congruence | destruct x; exact I].
  - apply abind_done in H as (a1 & [e1 x] & H & K). injection K as <- <- <-. apply refuse_cancel in H. split; [congruence | destruct x; exact I].
  - destruct (limit_new sd p q uid) as [m|err]; [|injection H as <- <- <-; split; [exact J | exact I]].
    apply abind_done in H as (a1 & [e1 x] & H & K). injection K as <- <- <-. apply refuse_amend in H. split; [congruence | destruct x; exact I].
  - apply lift_bind in H as (w & _ & H). apply abind_done in H as (a1 & e1 & H & K). injection K as <- <- <-.
    apply refuse_check in H as [J1 _]; [|exact J]. split; [exact J1 | exact I].
Qed.
Lemma refuse_run ops : forall e a b e' rs, ex_pos e = Neutral -> a_run L c e ops a = Done (b, (e', rs)) -> ex_pos e' = Neutral /\ Forall quiet rs.
Proof.
  induction ops as [|o ops IH]; intros e a b e' rs J H; cbn [a_run] in H.
  { injection H as <- <- <-. split; [exact J | constructor]. }
  apply abind_done in H as (a1 & [e1 x] & H & K). apply refuse_step in H as [J1 Q]; [|exact J].
  apply abind_done in K as (a2 & [e2 y] & H & K). apply IH in H as [J2 Qs]; [|exact J1]. injection K as <- <- <-.
  split; [exact J2 | constructor; assumption].
Qed.
Theorem refuse_idle ops a e rs : a_play L c ops = Done (a, (e, rs)) -> ex_pos e = Neutral /\ Forall quiet rs.
Proof.
  intros H. unfold a_play in H. apply bind_done in H as ([a0 e0] & E & H). unfold a_init in E. apply bind_done in E as (t & _ & E).
  apply bind_done in E as (? & _ & E). injection E as <- <-. eapply refuse_run; [|exact H]. reflexivity.
Qed.
End Refuse.
