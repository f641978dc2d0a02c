(** Statements about market updates, assembled for the properties. *)
From Coq Require Import Permutation.
From Verif Require Import ProofBase BookLemmas Spec SpecBook SpecRules SpecMargin SpecConfig SpecMarket SpecPanic
  Scenario ScenarioPanic OrderProof MarketProof LiqProof TotalProof PanicFacts.

(** Without rounding the long threshold is the exact product. *)
Lemma due_long_exact c i bid ask :
  0 < c_scale c -> (c_scale c | pi_entry i * (c_scale c - ct_mm (c_spec c))) ->
  due c (Long i) bid ask <-> bid * c_scale c < pi_entry i * (c_scale c - ct_mm (c_spec c)).
Proof.
  intros Hs [k E]. unfold due. rewrite E. split; intros H.
  - nia.
  - apply Z.mul_lt_mono_pos_r in H; [|lia]. apply Z.mul_le_mono_nonneg_r; lia.
Qed.
(** In general it is at most one unit of the last decimal place below. *)
Lemma due_long_bounds c i bid ask :
  0 < c_scale c ->
  (due c (Long i) bid ask -> bid * c_scale c < pi_entry i * (c_scale c - ct_mm (c_spec c))) /\
  ((bid + 1) * c_scale c <= pi_entry i * (c_scale c - ct_mm (c_spec c)) -> due c (Long i) bid ask).
Proof. intros Hs. cbn. split; nia. Qed.

(** ** Fills of one trade *)
Lemma caused_each c t book f : In f (caused c (RTrade t) book) -> f_qty f <= tr_qty t.
Proof.
  intros H. apply in_flat_map in H as (o & _ & H). cbn [touched] in H. destruct (crosses o t); [|destruct H].
  destruct H as [<-|[]]. cbn. lia.
Qed.
Lemma caused_exact c t book :
  sumZ (map f_qty (caused c (RTrade t) book)) = sumZ (map (fun o => Z.min (tr_qty t) (lo_rem o)) (filter (fun o => crosses o t) book)).
Proof.
  unfold caused. induction book as [|o l IH]; [reflexivity|].
  cbn [flat_map filter touched]. destruct (crosses o t); [|exact IH]. cbn [app map f_qty]. unfold touched in IH. unfold sumZ in *. cbn [fold_right]. rewrite IH. reflexivity.
Qed.
Lemma trade_fills c e t e' l :
  valid_config c -> reachable c e -> step c e (OpUpdate (RTrade t)) = Done (e', Ok (OutUpdates l)) ->
  statement_of e' = fold_left (apply_fill (c_kind c) (c_scale c)) (caused c (RTrade t) (ex_active e)) (statement_of e) /\
  (forall f, In f (caused c (RTrade t) (ex_active e)) -> f_qty f <= tr_qty t) /\
  sumZ (map f_qty (caused c (RTrade t) (ex_active e))) =
    sumZ (map (fun o => Z.min (tr_qty t) (lo_rem o)) (filter (fun o => crosses o t) (ex_active e))) /\
  ((length (filter (fun o => crosses o t) (ex_active e)) <= 1)%nat -> sumZ (map f_qty (caused c (RTrade t) (ex_active e))) <= Z.max 0 (tr_qty t)).
Proof.
  intros V R H. destruct (update_exact _ _ _ _ _ V R H) as (_ & _ & Hs & _). split; [exact Hs|]. split; [intros f Hf; eapply caused_each; exact Hf|].
  rewrite caused_exact. split; [reflexivity|]. destruct (filter _ _) as [|o [|? ?]]; cbn; intros; lia.
Qed.

(** Two resting buys of 1 are both filled by one sell of 1. *)
Definition two_buys : list op := [quote 100 101 1; OpLimit Buy (d 90) (d 1) 1; OpLimit Buy (d 95) (d 1) 2].
Definition one_sell : trade := {| tr_price := d 80; tr_qty := d 1; tr_side := Sell; tr_ts := 2 |}.
Lemma trade_overfills dbg : exists e outs e' l,
  history (L dbg) two_buys e outs /\ step (L dbg) e (OpUpdate (RTrade one_sell)) = Done (e', Ok (OutUpdates l)) /\
  position_quantity (ex_pos e) = 0 /\ tr_qty one_sell = d 1 /\ position_quantity (ex_pos e') = d 2.
Proof.
  destruct (play (L dbg) two_buys) as [[e outs]|] eqn:E; [|destruct dbg; vm_compute in E; discriminate].
  exists e, outs. do 2 eexists. split; [apply play_history; exact E|].
  destruct dbg; vm_compute in E; injection E as <- <-; (split; [vm_compute; reflexivity|]); repeat split; vm_compute; reflexivity.
Qed.

(** The largest position that can be opened cannot be liquidated. *)
Lemma liquidation_refuted dbg : exists e outs ru,
  valid_config (capped dbg) /\ history (capped dbg) (one_long ++ [OpMarket Buy (d 1) 1]) e outs /\
  good_data (capped dbg) ru /\ due_after (capped dbg) e ru /\ step (capped dbg) e (OpUpdate ru) = Panic PLiquidateSubmit.
Proof.
  destruct (play (capped dbg) (one_long ++ [OpMarket Buy (d 1) 1])) as [[e outs]|] eqn:E; [|destruct dbg; vm_compute in E; discriminate].
  exists e, outs, (RBba {| bb_bid := d 1; bb_ask := d 2; bb_ts := 3 |}). split; [apply capped_valid|]. split; [apply play_history; exact E|].
  split; [eapply good_data_by; [discriminate | vm_compute; split; reflexivity | reflexivity | vm_compute; reflexivity]|].
  destruct dbg; vm_compute in E; injection E as <- <-; (split; [vm_compute; discriminate | vm_compute; reflexivity]).
Qed.

(** ** Concrete cases *)
Lemma partial_fill : exists e outs e' o,
  history (L true) two_buys e outs /\
  step (L true) e (OpUpdate (RTrade {| tr_price := d 91; tr_qty := 4000; tr_side := Sell; tr_ts := 2 |}))
    = Done (e', Ok (OutUpdates [PartiallyFilled o])) /\ lo_price o = d 95 /\ lo_rem o = 6000 /\ length (ex_active e') = 2%nat.
Proof.
  destruct (play (L true) two_buys) as [[e outs]|] eqn:E; [|vm_compute in E; discriminate].
  exists e, outs. do 2 eexists. split; [apply play_history; exact E|].
  vm_compute in E; injection E as <- <-. split; [vm_compute; reflexivity|]. repeat split; vm_compute; reflexivity.
Qed.
Lemma liquidates : exists e outs e',
  history (L true) one_long e outs /\
  due_after (L true) e (RBba {| bb_bid := d 40; bb_ask := d 41; bb_ts := 3 |}) /\
  ~ due_after (L true) e (RBba {| bb_bid := d 51; bb_ask := d 52; bb_ts := 3 |}) /\
  step (L true) e (OpUpdate (RBba {| bb_bid := d 40; bb_ask := d 41; bb_ts := 3 |})) = Done (e', Err (ERisk Liquidate)).
Proof.
  destruct (play (L true) one_long) as [[e outs]|] eqn:E; [|vm_compute in E; discriminate].
  exists e, outs. eexists. split; [apply play_history; exact E|].
  vm_compute in E; injection E as <- <-. split; [vm_compute; discriminate|]. split; [vm_compute; congruence|]. vm_compute; reflexivity.
Qed.

Lemma orders_keep_market c e o e' r :
  0 <= c_max c <= 10000 -> reachable c e -> step c e o = Done (e', r) ->
  match o with OpUpdate _ => ms_step (ex_ms e') = ms_step (ex_ms e) + 1 | _ => ex_ms e' = ex_ms e end.
Proof.
  intros Hm R H. pose proof (step_market _ _ _ _ _ Hm (reachable_inv _ _ Hm R) H) as M. destruct o; try exact M. apply M.
Qed.
Lemma mirrored : exists e outs,
  history (L true) (two_buys ++ [OpUpdate (RTrade one_sell)]) e outs /\
  last_quote (two_buys ++ [OpUpdate (RTrade one_sell)]) = (d 100, d 101) /\ ms_bid (ex_ms e) = d 100 /\
  last_time (two_buys ++ [OpUpdate (RTrade one_sell)]) = 2 /\ count_updates (two_buys ++ [OpUpdate (RTrade one_sell)]) = 2.
Proof.
  destruct (play (L true) (two_buys ++ [OpUpdate (RTrade one_sell)])) as [[e outs]|] eqn:E; [|vm_compute in E; discriminate].
  exists e, outs. split; [apply play_history; exact E|]. vm_compute in E; injection E as <- <-. repeat split; vm_compute; reflexivity.
Qed.
Lemma fill_assertions dbg u o : (exists w, limit_order_filled dbg u o = Panic w) <->
  match u with
  | UBba _ => True
  | UTrade t => dbg = true /\ (tr_qty t <= 0 \/ lo_rem o <= 0)
  | UCandle _ => dbg = true /\ lo_rem o <= 0
  | USmart _ => False
  end.
Proof.
  destruct u as [b|t|k|s]; cbn [limit_order_filled].
  - split; [exact (fun _ => I) | intros _; eexists; reflexivity].
  - unfold MarketUpdate.trade_fills, debug_assert, assert. destruct dbg; cbn [bind].
    + destruct (Z.ltb_spec 0 (tr_qty t)) as [A|A]; cbn [bind].
      * destruct (Z.ltb_spec 0 (lo_rem o)) as [B|B]; cbn [bind]; split; [intros [w H]; discriminate | lia | intros _; split; [reflexivity | lia] | intros _; eexists; reflexivity].
      * split; [intros _; split; [reflexivity | lia] | intros _; eexists; reflexivity].
    + split; [intros [w H]; discriminate | intros [H _]; discriminate].
  - unfold MarketUpdate.candle_fills, debug_assert, assert. destruct dbg; cbn [bind].
    + destruct (Z.ltb_spec 0 (lo_rem o)) as [B|B]; cbn [bind]; split; [intros [w H]; discriminate | lia | intros _; split; [reflexivity | lia] | intros _; eexists; reflexivity].
    + split; [intros [w H]; discriminate | intros [H _]; discriminate].
  - split; [intros [w H]; discriminate | intros []].
Qed.
