(** In a release build an order can be placed and cancelled as often as the counters allow. *)
From Verif Require Import Base Types Filters Accounting Currency Position OrderBook OrderMargin Risk MarketUpdate Tracker Exchange
  Width Fixed FixedProof Wrapped WrapSim WrapExact WrapProof ProofBase BookLemmas Inv Spec SpecConfig SpecFixed SpecMargin SpecWrapped MarginProof.

Lemma cbind_done {A B} (m : checked A) (k : A -> checked B) x :
  cbind m k = Fine (Done x) -> exists a, m = ret a /\ k a = Fine (Done x).
Proof. destruct m as [[a|]|]; cbn; intros H; try discriminate. exists a. auto. Qed.

Tactic Notation "cs" hyp(H) ident(x) ident(E) := apply cbind_done in H; destruct H as (x & E & H).

Lemma count_done z x : count z = ret x -> x = z /\ fits_unsigned 64 z = true.
Proof. unfold count. destruct (fits_unsigned 64 z); [|discriminate]. intros H. injection H as <-. auto. Qed.

Lemma assert_done b p x : Fine (assert b p) = ret x -> b = true.
Proof. destruct b; [reflexivity | discriminate]. Qed.

Lemma side_app sd b o o' :
  lo_side o = lo_side o' -> lo_price o = lo_price o' -> lo_rem o = lo_rem o' -> side_orders sd (b ++ [o]) = side_orders sd (b ++ [o']).
Proof.
  intros E1 E2 E3. unfold side_orders. rewrite !filter_app, !map_app. f_equal. cbn. rewrite E1.
  destruct (side_eq_dec (lo_side o') sd); cbn; [rewrite E2, E3|]; reflexivity.
Qed.

Lemma margin_id w c b pos l i i' t :
  w_order_margin w c (b ++ [limit_into_pending l i t]) pos = w_order_margin w c (b ++ [limit_into_pending l i' t]) pos.
Proof.
  unfold w_order_margin, w_order_margin_internal; cbv zeta.
  rewrite !(side_app _ b (limit_into_pending l i t) (limit_into_pending l i' t)) by reflexivity. reflexivity.
Qed.

Lemma insert_fresh cap b o :
  ~ In (lo_id o) (ids b) ->
  book_insert cap b o = if cap <=? Z.of_nat (length b) then (b, Err EMaxNumberOfActiveOrders) else (b ++ [o], Ok None).
Proof. intros H. unfold book_insert. apply get_by_id_none in H. rewrite H. reflexivity. Qed.

Lemma update_fresh cap b o :
  ~ In (lo_id o) (ids b) -> 0 < lo_rem o ->
  om_update cap b o = if cap <=? Z.of_nat (length b) then Done (b, Err EMaxNumberOfActiveOrders) else Done (b ++ [o], Ok tt).
Proof.
  intros H Hr. unfold om_update, assert. destruct (Z.ltb_spec 0 (lo_rem o)); [|lia]. cbn [bind].
  rewrite insert_fresh by assumption. destruct (cap <=? _); reflexivity.
Qed.

Section Churn.
Variable w : Z.
Hypothesis Hw : 0 < w.
Notation VL := (wrapping_ledger w).
Notation bl := (v_balance w).

Definition moved (a : accounts) (d c : account_id) (amt : Z) : accounts :=
  set_account (set_account a c {| ta_debits := ta_debits (get_account a c); ta_credits := wrap w (ta_credits (get_account a c) + amt) |})
    d {| ta_debits := wrap w (ta_debits (get_account a d) + amt); ta_credits := ta_credits (get_account a d) |}.

Definition affords (a : accounts) (d c : account_id) (amt : Z) : Prop :=
  0 < amt /\ fits w (bl a d + amt) = true /\ fits w (bl a c - amt) = true.

Lemma v_transfer_done a d c amt a' :
  d <> c -> l_transfer VL a d c amt = ret a' <-> affords a d c amt /\ a' = moved a d c amt.
Proof.
  intros Hd. cbn [wrapping_ledger l_transfer]. rewrite (v_transfer_eq w a d c amt Hd). unfold affords.
  destruct (Z.ltb_spec 0 amt).
  - destruct (fits w (bl a d + amt)); [|split; [discriminate | intros ((_ & X & _) & _); discriminate]].
    destruct (fits w (bl a c - amt)); [|split; [discriminate | intros ((_ & _ & X) & _); discriminate]].
    split; [intros X; injection X as <-; auto | intros [_ ->]; reflexivity].
  - split; [discriminate | lia].
Qed.

Lemma moved_balance a d c amt id :
  d <> c -> affords a d c amt ->
  bl (moved a d c amt) id = bl a id + (if account_id_eq_dec d id then amt else if account_id_eq_dec c id then - amt else 0).
Proof.
  intros Hd (_ & F1 & F2). unfold moved, v_balance in *; cbv zeta in *. rewrite !get_set.
  destruct (account_id_eq_dec d id) as [<-|]; [|destruct (account_id_eq_dec c id) as [<-|]]; cbn [ta_debits ta_credits].
  - match goal with |- _ = ?r => rewrite <- (wrap_id w Hw r F1) end. apply wrap_eq; [assumption|].
    set (x := ta_debits (get_account a d)). set (y := ta_credits (get_account a d)).
    destruct (wrap_spec w Hw (x - y)) as [[k K] _]. destruct (wrap_spec w Hw (x + amt)) as [[l K'] _]. exists (k - l). lia.
  - match goal with |- ?x + - amt = _ => idtac | |- _ = ?x + - amt => change (x + - amt) with (x - amt) end.
    match goal with |- _ = ?r => rewrite <- (wrap_id w Hw r F2) end. apply wrap_eq; [assumption|].
    set (x := ta_debits (get_account a c)). set (y := ta_credits (get_account a c)).
    destruct (wrap_spec w Hw (x - y)) as [[k K] _]. destruct (wrap_spec w Hw (y + amt)) as [[l K'] _]. exists (k + l). lia.
  - lia.
Qed.

(** What a submission and its cancellation need, apart from the counters: it does not mention ids or totals. *)
Record Open (c : config) (ms : market_state) (pos : position) (b : list limit_order) (l : new_limit) (wallet om new : Z) : Prop := {
  op_qty : w_validate_order_quantity w (ct_qf (c_spec c)) (nl_rem l) = ret (Ok tt);
  op_mid : exists mid, w_mid_price w ms = ret mid /\ w_validate_limit_price w (c_scale c) (ct_pf (c_spec c)) (nl_price l) mid = ret (Ok tt);
  op_risk : w_check_limit_order w c pos (limit_into_pending l 0 (ms_ts ms)) wallet b = ret (Ok tt);
  op_cross : marketable ms (limit_into_pending l 0 (ms_ts ms)) = false;
  op_rem : 0 < nl_rem l;
  op_cap : (c_max c <=? Z.of_nat (length b)) = false;
  op_act : (active_capacity <=? Z.of_nat (length b)) = false;
  op_new : w_order_margin w c (b ++ [limit_into_pending l 0 (ms_ts ms)]) pos = ret new;
  op_more : new = om \/ (om < new /\ fits w (new - om) = true /\ fits w (wallet - (new - om)) = true /\ fits w new = true /\ new - om <= wallet)
}.

Definition pending (e : exchange) (l : new_limit) : limit_order := limit_into_pending l (ex_next_id e) (ms_ts (ex_ms e)).

(** The state after the submission. *)
Definition placed (e : exchange) (l : new_limit) (t : tracker) (a : accounts) : exchange :=
  set_acc (set_active (set_om (set_next_id (set_trk e t) (ex_next_id e + 1)) (ex_om e ++ [pending e l])) (ex_active e ++ [pending e l])) a.

Definition paid (e : exchange) (om new : Z) : accounts := if new =? om then ex_acc e else moved (ex_acc e) ORDER_MARGIN WALLET (new - om).

Lemma log_sub_done t x : w_log_limit_order_submission w t = ret x -> x = log_limit_order_submission t.
Proof.
  intros H. destruct (r_log_submission w t) as [E|E]; rewrite E in H; [discriminate|]. injection H as <-. reflexivity.
Qed.
Lemma log_can_done t x : w_log_limit_order_cancellation w t = ret x -> x = log_limit_order_cancellation t.
Proof.
  intros H. destruct (r_log_cancellation w t) as [E|E]; rewrite E in H; [discriminate|]. injection H as <-. reflexivity.
Qed.

(** A submission without loss of margin. *)
Lemma submit_elim c e l e1 o :
  ex_om e = ex_active e -> ~ In (ex_next_id e) (ids (ex_active e)) ->
  g_submit_limit_order VL w c e l = Fine (Done (e1, Ok o)) ->
  w_order_margin w c (ex_om e1) (ex_pos e1) = ret (bl (ex_acc e1) ORDER_MARGIN) ->
  exists new, Open c (ex_ms e) (ex_pos e) (ex_active e) l (bl (ex_acc e) WALLET) (bl (ex_acc e) ORDER_MARGIN) new /\
    o = pending e l /\ e1 = placed e l (log_limit_order_submission (ex_trk e)) (paid e (bl (ex_acc e) ORDER_MARGIN) new).
Proof.
  intros Hb Hf H Hsync. unfold g_submit_limit_order in H; cbv zeta in H.
  cs H t1 E1. apply log_sub_done in E1. subst t1.
  cbn [set_trk set_next_id ex_ms ex_next_id ex_acc ex_pos ex_om] in H.
  cs H v1 E2. destruct v1 as [[]|]; [|discriminate]. cs H mid E3. cs H v2 E4. destruct v2 as [[]|]; [|discriminate].
  cs H nx E5. apply count_done in E5 as [-> Hn]. cbn [wrapping_ledger l_balance] in H.
  cs H wl E6. injection E6 as <-. rewrite Hb in H.
  fold (pending e l) in H. cs H v3 E7. destruct v3 as [[]|]; [|discriminate].
  destruct (marketable (ex_ms e) (pending e l)) eqn:Hm; [discriminate|].
  cs H pr Ha. destruct pr as [e2 r]. destruct r as [[]|]; [|discriminate]. injection H as <- <-.
  unfold g_append_limit_order, w_computed_order_margin in Ha; cbv zeta in Ha.
  cbn [set_trk set_next_id set_om set_active ex_ms ex_next_id ex_acc ex_pos ex_om ex_active] in Ha.
  cs Ha pr F1. destruct pr as [om' r']. destruct r' as [[]|]; [|discriminate].
  cbn [set_trk set_next_id set_om set_active ex_ms ex_next_id ex_acc ex_pos ex_om ex_active] in Ha.
  assert (Hr : 0 < nl_rem l).
  { unfold om_update, assert in F1. cbn [pending limit_into_pending lo_rem] in F1.
    destruct (Z.ltb_spec 0 (nl_rem l)); [assumption|discriminate]. }
  rewrite Hb, update_fresh in F1 by (cbn; assumption). destruct (c_max c <=? Z.of_nat (length (ex_active e))) eqn:Hc1; [discriminate|].
  injection F1 as <-. rewrite insert_fresh in Ha by (cbn; assumption).
  destruct (active_capacity <=? Z.of_nat (length (ex_active e))) eqn:Hc2; [discriminate|].
  cs Ha new F2. cs Ha omx F3. injection F3 as <-. cbn [set_active set_om set_next_id set_trk ex_om ex_pos ex_acc] in F2, Ha.
  assert (HO : w_order_margin w c (ex_active e ++ [limit_into_pending l 0 (ms_ts (ex_ms e))]) (ex_pos e) = ret new)
    by (rewrite <- F2; apply margin_id).
  set (om := bl (ex_acc e) ORDER_MARGIN) in *.
  destruct (Z.compare_spec new om) as [E|E|E].
  - injection Ha as <-. exists new. split; [|split; [reflexivity|]].
    + constructor; eauto.
    + unfold placed, paid. rewrite E, Z.eqb_refl, Hb. destruct e; reflexivity.
  - exfalso. cs Ha amt G1. cs Ha ac G2. apply v_transfer_done in G2 as [Af ->]; [|discriminate].
    cs Ha u1 G3. cs Ha u2 G4. cs Ha u3 G5. cs Ha u4 G6. injection Ha as <-.
    cbn [set_trk set_next_id set_om set_active set_acc ex_acc ex_om ex_pos] in *.
    unfold csub, chk in G1. destruct (fits w (om - new)); [|discriminate]. injection G1 as <-.
    rewrite moved_balance in Hsync by (discriminate || assumption). rewrite F2 in Hsync.
    injection Hsync as Hsync. fold om in Hsync. cbn in Hsync. lia.
  - cs Ha amt G1. cs Ha ac G2. apply v_transfer_done in G2 as [Af ->]; [|discriminate].
    cs Ha u1 G3. cs Ha u2 G4. cs Ha u3 G5. cs Ha u4 G6. injection Ha as <-.
    cbn [set_trk set_next_id set_om set_active set_acc ex_acc ex_om ex_pos] in *.
    unfold csub, chk in G1. destruct (fits w (new - om)) eqn:F; [|discriminate]. injection G1 as <-.
    unfold g_assert_user_wallet_balance in G6. cbn [wrapping_ledger l_balance cbind ret] in G6.
    apply assert_done in G6. rewrite moved_balance in G6 by (discriminate || assumption). cbn in G6. apply Z.leb_le in G6.
    destruct Af as (_ & A1 & A2). fold om in A1.
    exists new. split; [|split; [reflexivity|]].
    + constructor; eauto. right. replace (om + (new - om)) with new in A1 by lia. repeat split; try assumption; lia.
    + unfold placed, paid. destruct (Z.eqb_spec new om); [lia|]. rewrite Hb. destruct e; reflexivity.
Qed.

Lemma submit_intro c e l new :
  ex_om e = ex_active e -> ~ In (ex_next_id e) (ids (ex_active e)) ->
  w_log_limit_order_submission w (ex_trk e) = ret (log_limit_order_submission (ex_trk e)) ->
  fits_unsigned 64 (ex_next_id e + 1) = true ->
  Open c (ex_ms e) (ex_pos e) (ex_active e) l (bl (ex_acc e) WALLET) (bl (ex_acc e) ORDER_MARGIN) new ->
  g_submit_limit_order VL w c e l
  = Fine (Done (placed e l (log_limit_order_submission (ex_trk e)) (paid e (bl (ex_acc e) ORDER_MARGIN) new), Ok (pending e l))).
Proof.
  intros Hb Hf Ht Hn O. destruct O as [O1 (mid & O2 & O3) O4 O5 O6 O7 O8 O9 O10].
  unfold g_submit_limit_order; cbv zeta. rewrite Ht. cbn [cbind ret].
  cbn [set_trk set_next_id ex_ms ex_next_id ex_acc ex_pos ex_om].
  rewrite O1; cbn [cbind ret]. rewrite O2; cbn [cbind ret]. rewrite O3; cbn [cbind ret].
  unfold count. rewrite Hn; cbn [cbind ret]. cbn [wrapping_ledger l_balance]. cbn [cbind ret].
  rewrite Hb. fold (pending e l).
  change (w_check_limit_order w c (ex_pos e) (pending e l) (bl (ex_acc e) WALLET) (ex_active e))
    with (w_check_limit_order w c (ex_pos e) (limit_into_pending l 0 (ms_ts (ex_ms e))) (bl (ex_acc e) WALLET) (ex_active e)).
  rewrite O4; cbn [cbind ret].
  change (marketable (ex_ms e) (pending e l)) with (marketable (ex_ms e) (limit_into_pending l 0 (ms_ts (ex_ms e)))). rewrite O5.
  unfold g_append_limit_order, w_computed_order_margin; cbv zeta.
  cbn [set_trk set_next_id set_om set_active ex_ms ex_next_id ex_acc ex_pos ex_om ex_active].
  rewrite Hb, update_fresh by (cbn; assumption). rewrite O7. cbn [cbind].
  cbn [set_trk set_next_id set_om set_active ex_ms ex_next_id ex_acc ex_pos ex_om ex_active].
  rewrite insert_fresh by (cbn; assumption). rewrite O8.
  cbn [set_trk set_next_id set_om set_active ex_ms ex_next_id ex_acc ex_pos ex_om ex_active].
  unfold pending at 1. rewrite (margin_id w c _ _ l (ex_next_id e) 0), O9. cbn [cbind ret wrapping_ledger l_balance].
  set (om := bl (ex_acc e) ORDER_MARGIN) in *. unfold placed, paid.
  destruct O10 as [E|(E & F1 & F2 & F3 & E2)].
  - rewrite E, Z.compare_refl, Z.eqb_refl. cbn [cbind ret]. rewrite Hb. destruct e; reflexivity.
  - assert (Ec : (new ?= om) = Gt) by (apply Z.compare_gt_iff; lia). rewrite Ec.
    unfold csub, chk. rewrite F1. cbn [cbind ret].
    assert (Af : affords (ex_acc e) ORDER_MARGIN WALLET (new - om)).
    { split; [lia|]. split; [fold om; replace (om + (new - om)) with new by lia; exact F3 | exact F2]. }
    destruct (proj2 (v_transfer_done (ex_acc e) ORDER_MARGIN WALLET (new - om) _ ltac:(discriminate)) (conj Af eq_refl)).
    rewrite (proj2 (v_transfer_done (ex_acc e) ORDER_MARGIN WALLET (new - om) _ ltac:(discriminate)) (conj Af eq_refl)).
    cbn [cbind ret set_acc ex_om ex_active]. rewrite orders_eqb_refl. cbn [assert cbind].
    unfold g_empty_margin. cbn [set_acc set_active ex_active]. destruct (ex_active e ++ [pending e l]) eqn:Ea; [destruct (ex_active e); discriminate|].
    cbn [cbind ret assert]. unfold g_assert_user_wallet_balance. cbn [wrapping_ledger l_balance cbind ret ex_acc set_acc].
    rewrite moved_balance by (discriminate || assumption). cbn [account_id_eq_dec].
    cbn. destruct (Z.leb_spec 0 (bl (ex_acc e) WALLET + - (new - om))); [|lia]. cbn [assert cbind].
    destruct (Z.eqb_spec new om); [lia|]. rewrite Hb, ?Ea. destruct e; reflexivity.
Qed.

(** Room for [k] more submissions and cancellations in the counters. *)
Definition room (t : tracker) (k : Z) : Prop :=
  0 <= tk_sub_limit t + 1 /\ tk_sub_limit t + k < 2 ^ 64 /\ 0 <= tk_cancelled t /\ tk_cancelled t + k < 2 ^ 64 /\
  fits_unsigned 64 (tk_fill_events t) = true /\ fits_unsigned 64 (tk_fully_filled t) = true /\
  fits_unsigned 64 (tk_sub_market t) = true /\ fits_unsigned 64 (tk_filled_market t) = true /\
  fits w (tk_buy_volume t) = true /\ fits w (tk_sell_volume t) = true.

Lemma unsigned_intro z : 0 <= z < 2 ^ 64 -> fits_unsigned 64 z = true.
Proof. intros [A B]. unfold fits_unsigned. apply Z.leb_le in A. apply Z.ltb_lt in B. rewrite A, B. reflexivity. Qed.
Lemma unsigned_elim z : fits_unsigned 64 z = true -> 0 <= z < 2 ^ 64.
Proof. unfold fits_unsigned. intros H. apply andb_prop in H as [A B]. apply Z.leb_le in A. apply Z.ltb_lt in B. auto. Qed.

Lemma log_sub_room t k : 1 <= k -> room t k -> w_log_limit_order_submission w t = ret (log_limit_order_submission t).
Proof.
  intros Hk (A & B & C & D & E & F & G & H & I & J). unfold w_log_limit_order_submission, w_tracker_add, count, cadd, chk.
  rewrite !Z.add_0_r, (unsigned_intro (tk_sub_limit t + 1)), (unsigned_intro (tk_cancelled t)), E, F, G, H, I, J by lia. reflexivity.
Qed.
Lemma log_can_room t k : 1 <= k -> room t k ->
  w_log_limit_order_cancellation w (log_limit_order_submission t) = ret (log_limit_order_cancellation (log_limit_order_submission t)).
Proof.
  intros Hk (A & B & C & D & E & F & G & H & I & J). unfold w_log_limit_order_cancellation, w_tracker_add, count, cadd, chk.
  cbn [log_limit_order_submission tracker_add tk_sub_limit tk_cancelled tk_fill_events tk_fully_filled tk_sub_market tk_filled_market tk_buy_volume tk_sell_volume].
  rewrite !Z.add_0_r, (unsigned_intro (tk_sub_limit t + 1)), (unsigned_intro (tk_cancelled t + 1)), E, F, G, H, I, J by lia. reflexivity.
Qed.
Lemma room_next t k : room t (k + 1) -> room (log_limit_order_cancellation (log_limit_order_submission t)) k.
Proof.
  unfold room. cbn [log_limit_order_cancellation log_limit_order_submission tracker_add tk_sub_limit tk_cancelled tk_fill_events tk_fully_filled tk_sub_market tk_filled_market tk_buy_volume tk_sell_volume].
  rewrite !Z.add_0_r. intuition lia.
Qed.
Lemma log_sub_elim t x : w_log_limit_order_submission w t = ret x ->
  0 <= tk_sub_limit t + 1 /\ 0 <= tk_cancelled t /\ fits_unsigned 64 (tk_fill_events t) = true /\ fits_unsigned 64 (tk_fully_filled t) = true /\
  fits_unsigned 64 (tk_sub_market t) = true /\ fits_unsigned 64 (tk_filled_market t) = true /\
  fits w (tk_buy_volume t) = true /\ fits w (tk_sell_volume t) = true.
Proof.
  unfold w_log_limit_order_submission, w_tracker_add, cadd, chk. rewrite !Z.add_0_r. intros H.
  cs H x1 E1. cs H x2 E2. cs H x3 E3. cs H x4 E4. cs H x5 E5. cs H x6 E6. cs H x7 E7. cs H x8 E8.
  apply count_done in E1 as [_ E1]. apply unsigned_elim in E1. apply count_done in E2 as [_ E2]. apply count_done in E3 as [_ E3]. apply count_done in E4 as [_ E4].
  apply count_done in E5 as [_ E5]. apply count_done in E6 as [_ E6].
  destruct (fits w (tk_buy_volume t)); [|discriminate]. destruct (fits w (tk_sell_volume t)); [|discriminate].
  apply unsigned_elim in E2. intuition lia.
Qed.

(** Everything that the next round needs is as before. *)
Record again (e e' : exchange) : Prop := {
  ag_ms : ex_ms e' = ex_ms e;
  ag_pos : ex_pos e' = ex_pos e;
  ag_act : ex_active e' = ex_active e;
  ag_om : ex_om e' = ex_active e;
  ag_next : ex_next_id e' = ex_next_id e + 1;
  ag_trk : ex_trk e' = log_limit_order_cancellation (log_limit_order_submission (ex_trk e));
  ag_bal : forall id, bl (ex_acc e') id = bl (ex_acc e) id }.

Lemma bl_fits a id : fits w (bl a id) = true.
Proof. apply wrap_fits; assumption. Qed.

Lemma paid_balance e om new id :
  om = bl (ex_acc e) ORDER_MARGIN ->
  (new = om \/ affords (ex_acc e) ORDER_MARGIN WALLET (new - om)) ->
  bl (paid e om new) id = bl (ex_acc e) id + (if account_id_eq_dec ORDER_MARGIN id then new - om else if account_id_eq_dec WALLET id then om - new else 0).
Proof.
  intros Ho [->|A]; unfold paid.
  - rewrite Z.eqb_refl. destruct (account_id_eq_dec _ id); [|destruct (account_id_eq_dec _ id)]; lia.
  - destruct (Z.eqb_spec new om) as [->|]; [destruct A; lia|]. rewrite moved_balance by (discriminate || assumption).
    destruct (account_id_eq_dec _ id); [|destruct (account_id_eq_dec _ id)]; lia.
Qed.

Lemma cancel_intro c e l new k :
  1 <= k -> room (ex_trk e) k ->
  ex_om e = ex_active e -> ~ In (ex_next_id e) (ids (ex_active e)) ->
  Open c (ex_ms e) (ex_pos e) (ex_active e) l (bl (ex_acc e) WALLET) (bl (ex_acc e) ORDER_MARGIN) new ->
  w_order_margin w c (ex_active e) (ex_pos e) = ret (bl (ex_acc e) ORDER_MARGIN) ->
  (ex_active e = [] -> bl (ex_acc e) ORDER_MARGIN = 0) ->
  exists e2, again e e2 /\
    g_cancel_limit_order VL w c (placed e l (log_limit_order_submission (ex_trk e)) (paid e (bl (ex_acc e) ORDER_MARGIN) new))
      (ByOrderId (ex_next_id e)) = Fine (Done (e2, Ok (pending e l))).
Proof.
  intros Hk Hr Hb Hf O Hm Hz. set (om := bl (ex_acc e) ORDER_MARGIN) in *.
  assert (HA : new = om \/ affords (ex_acc e) ORDER_MARGIN WALLET (new - om)).
  { destruct (op_more _ _ _ _ _ _ _ _ O) as [E|(E & F1 & F2 & F3 & E2)]; [left; assumption|right].
    split; [lia|]. split; [fold om; replace (om + (new - om)) with new by lia; exact F3 | exact F2]. }
  assert (HP : forall id, bl (paid e om new) id = bl (ex_acc e) id + (if account_id_eq_dec ORDER_MARGIN id then new - om else if account_id_eq_dec WALLET id then om - new else 0))
    by (intros id; apply paid_balance; [reflexivity | exact HA]).
  pose proof (op_new _ _ _ _ _ _ _ _ O) as On. rewrite (margin_id w c _ _ l 0 (ex_next_id e)) in On. fold (pending e l) in On.
  unfold g_cancel_limit_order, w_computed_order_margin; cbv zeta. cbn [wrapping_ledger l_balance cbind ret].
  unfold placed. cbn [set_trk set_next_id set_om set_active set_acc ex_ms ex_next_id ex_acc ex_pos ex_om ex_active ex_trk].
  rewrite HP. cbn [account_id_eq_dec]. change (if account_id_eq_dec ORDER_MARGIN ORDER_MARGIN then new - om else _) with (new - om).
  fold om. replace (om + (new - om)) with new by lia. rewrite Hb, On. cbn [cbind ret]. rewrite Z.eqb_refl. cbn [assert cbind].
  change (ex_next_id e) with (lo_id (pending e l)) at 1 2 3 4 5 6.
  rewrite remove_id_app by exact Hf. cbn [set_trk set_next_id set_om set_active set_acc ex_ms ex_next_id ex_acc ex_pos ex_om ex_active ex_trk].
  unfold om_remove. rewrite remove_id_app by exact Hf. cbn [cbind].
  cbn [set_trk set_next_id set_om set_active set_acc ex_ms ex_next_id ex_acc ex_pos ex_om ex_active ex_trk].
  rewrite Hm. cbn [cbind ret].
  assert (Hle : om <= new) by (destruct (op_more _ _ _ _ _ _ _ _ O) as [E|(E & _)]; lia).
  destruct (Z.leb_spec om new); [|lia]. cbn [assert cbind].
  destruct (Z.ltb_spec om new) as [Hlt|Hge].
  - destruct (op_more _ _ _ _ _ _ _ _ O) as [E|(E & F1 & F2 & F3 & E2)]; [lia|].
    unfold csub, chk. rewrite F1. cbn [cbind ret].
    assert (Af : affords (paid e om new) WALLET ORDER_MARGIN (new - om)).
    { split; [lia|]. rewrite !HP. cbn [account_id_eq_dec].
      change (if account_id_eq_dec ORDER_MARGIN ORDER_MARGIN then new - om else _) with (new - om).
      change (if account_id_eq_dec ORDER_MARGIN WALLET then _ else if account_id_eq_dec WALLET WALLET then om - new else 0) with (om - new).
      split; [replace (_ + _ + _) with (bl (ex_acc e) WALLET) by lia | fold om; replace (om + _ - _) with (bl (ex_acc e) ORDER_MARGIN) by (fold om; lia)]; apply bl_fits. }
    pose proof (proj2 (v_transfer_done (paid e om new) WALLET ORDER_MARGIN (new - om) _ ltac:(discriminate)) (conj Af eq_refl)) as HT.
    rewrite HT. cbn [cbind ret].
    cbn [set_trk set_next_id set_om set_active set_acc ex_ms ex_next_id ex_acc ex_pos ex_om ex_active ex_trk].
    rewrite (log_can_room _ k Hk Hr). cbn [cbind ret].
    cbn [set_trk set_next_id set_om set_active set_acc ex_ms ex_next_id ex_acc ex_pos ex_om ex_active ex_trk].
    rewrite orders_eqb_refl. cbn [assert cbind].
    assert (HB : forall id, bl (moved (paid e om new) WALLET ORDER_MARGIN (new - om)) id = bl (ex_acc e) id).
    { intros id. rewrite moved_balance, HP by (discriminate || assumption).
      destruct (account_id_eq_dec ORDER_MARGIN id), (account_id_eq_dec WALLET id); try congruence; lia. }
    unfold g_empty_margin. cbn [set_trk set_next_id set_om set_active set_acc ex_ms ex_next_id ex_acc ex_pos ex_om ex_active ex_trk wrapping_ledger l_balance cbind ret].
    rewrite HB. fold om. unfold ret at 1 2.
    replace (match ex_active e with [] => Fine (Done (om =? 0)) | _ :: _ => Fine (Done true) end) with (ret true)
      by (destruct (ex_active e); [rewrite (Hz eq_refl)|]; reflexivity).
    cbn [cbind ret assert]. eexists. split; [|reflexivity].
    constructor; cbn [set_trk set_next_id set_om set_active set_acc ex_ms ex_next_id ex_acc ex_pos ex_om ex_active ex_trk];
      try reflexivity. exact HB.
  - assert (E : new = om) by lia. clear HA Hle Hge. subst new. cbn [cbind ret].
    cbn [set_trk set_next_id set_om set_active set_acc ex_ms ex_next_id ex_acc ex_pos ex_om ex_active ex_trk].
    rewrite (log_can_room _ k Hk Hr). cbn [cbind ret].
    cbn [set_trk set_next_id set_om set_active set_acc ex_ms ex_next_id ex_acc ex_pos ex_om ex_active ex_trk].
    rewrite orders_eqb_refl. cbn [assert cbind].
    assert (HB : forall id, bl (paid e om om) id = bl (ex_acc e) id).
    { intros id. rewrite HP. destruct (account_id_eq_dec ORDER_MARGIN id), (account_id_eq_dec WALLET id); lia. }
    unfold g_empty_margin. cbn [set_trk set_next_id set_om set_active set_acc ex_ms ex_next_id ex_acc ex_pos ex_om ex_active ex_trk wrapping_ledger l_balance cbind ret].
    rewrite HB. fold om. unfold ret at 1 2.
    replace (match ex_active e with [] => Fine (Done (om =? 0)) | _ :: _ => Fine (Done true) end) with (ret true)
      by (destruct (ex_active e); [rewrite (Hz eq_refl)|]; reflexivity).
    cbn [cbind ret assert]. eexists. split; [|reflexivity].
    constructor; cbn [set_trk set_next_id set_om set_active set_acc ex_ms ex_next_id ex_acc ex_pos ex_om ex_active ex_trk];
      try reflexivity. exact HB.
Qed.

Lemma rounds c sd p q uid l new n : forall e,
  limit_new sd p q uid = Ok l -> ex_om e = ex_active e -> (forall o, In o (ex_active e) -> lo_id o < ex_next_id e) ->
  0 <= ex_next_id e -> ex_next_id e + Z.of_nat n < 2 ^ 64 -> room (ex_trk e) (Z.of_nat n) ->
  Open c (ex_ms e) (ex_pos e) (ex_active e) l (bl (ex_acc e) WALLET) (bl (ex_acc e) ORDER_MARGIN) new ->
  w_order_margin w c (ex_active e) (ex_pos e) = ret (bl (ex_acc e) ORDER_MARGIN) ->
  (ex_active e = [] -> bl (ex_acc e) ORDER_MARGIN = 0) ->
  exists e' outs, v_run w c e (churn sd p q uid (ex_next_id e) n) = Fine (Done (e', outs)) /\ forallb is_ok outs = true /\
    ex_active e' = ex_active e /\ ex_pos e' = ex_pos e /\ forall id, bl (ex_acc e') id = bl (ex_acc e) id.
Proof.
  induction n as [|n IH]; intros e El Hb Hi H0 Hn Hr O Hm Hz.
  - exists e, []. repeat split.
  - assert (Hf : ~ In (ex_next_id e) (ids (ex_active e))).
    { intros Hin. unfold ids in Hin. apply in_map_iff in Hin as [o [Ho Hin]]. specialize (Hi o Hin). lia. }
    rewrite Nat2Z.inj_succ in Hn, Hr. unfold Z.succ in Hr.
    assert (F : fits_unsigned 64 (ex_next_id e + 1) = true) by (apply unsigned_intro; lia).
    pose proof (submit_intro c e l new Hb Hf (log_sub_room _ (Z.of_nat n + 1) ltac:(lia) Hr) F O) as S1.
    destruct (cancel_intro c e l new (Z.of_nat n + 1) ltac:(lia) Hr Hb Hf O Hm Hz) as (e2 & A & S2).
    destruct A as [A1 A2 A3 A4 A5 A6 A7].
    destruct (IH e2) as (e' & outs & R & Rok & R1 & R2 & R3); try assumption.
    { rewrite A4, A3. reflexivity. } { rewrite A3, A5. intros o Ho. specialize (Hi o Ho). lia. } { lia. } { lia. }
    { rewrite A6. apply room_next, Hr. } { rewrite A1, A2, A3, !A7. exact O. } { rewrite A2, A3, A7. exact Hm. } { rewrite A3, A7. exact Hz. }
    exists e', (Ok (OutLimit (pending e l)) :: Ok (OutLimit (pending e l)) :: outs). split.
    + unfold v_run in *. cbn [churn g_run g_step]. rewrite El. rewrite S1. cbn [w_map_out cbind ret].
      rewrite S2. cbn [w_map_out cbind ret]. rewrite <- A5, R. reflexivity.
    + split; [exact Rok|]. split; [congruence|]. split; [congruence|]. intros id. rewrite R3. apply A7.
Qed.

Lemma g_run_app (L : Wrapped.ledger) c ops1 : forall ops2 e e1 o1,
  Wrapped.g_run L w c e ops1 = Fine (Done (e1, o1)) ->
  Wrapped.g_run L w c e (ops1 ++ ops2) = ('(e2, o2) <~ Wrapped.g_run L w c e1 ops2 ;; ret (e2, o1 ++ o2)).
Proof.
  induction ops1 as [|o ops1 IH]; intros ops2 e e1 o1 H; cbn [app Wrapped.g_run] in *.
  - injection H as <- <-. destruct (Wrapped.g_run L w c e ops2) as [[[e2 o2]|]|]; reflexivity.
  - destruct (g_step L w c e o) as [[[e' r]|]|]; cbn [cbind] in *; try discriminate.
    destruct (Wrapped.g_run L w c e' ops1) as [[[e'' rs]|]|] eqn:E; cbn [cbind] in *; try discriminate.
    injection H as <- <-. rewrite (IH ops2 e' e'' rs E).
    destruct (Wrapped.g_run L w c e'' ops2) as [[[e2 o2]|]|]; reflexivity.
Qed.

Lemma map_out_fine {A} (f : A -> out) (m : checked (exchange * result error A)) e r :
  w_map_out f m = Fine (Done (e, Ok r)) -> exists x, m = Fine (Done (e, Ok x)) /\ r = f x.
Proof. unfold w_map_out. destruct m as [[[e' [x|]]|]|]; cbn; intros H; try discriminate. injection H as <- <-. eauto. Qed.

Lemma release_forever c ops e outs sd p q uid e1 e2 o x n :
  valid_config c -> c_dbg c = false -> v_play w c ops = Fine (Done (e, outs)) ->
  order_margin c (ex_active e) (ex_pos e) = Done (bl (ex_acc e) ORDER_MARGIN) ->
  v_step w c e (OpLimit sd p q uid) = Fine (Done (e1, Ok (OutLimit o))) ->
  v_step w c e1 (OpCancel (ByOrderId (ex_next_id e))) = Fine (Done (e2, Ok x)) ->
  ex_next_id e + Z.of_nat n < 2 ^ 64 -> tk_sub_limit (ex_trk e) + Z.of_nat n < 2 ^ 64 -> tk_cancelled (ex_trk e) + Z.of_nat n < 2 ^ 64 ->
  exists e' more, v_play w c (ops ++ churn sd p q uid (ex_next_id e) n) = Fine (Done (e', outs ++ more)) /\ forallb is_ok more = true /\
    ex_active e' = ex_active e /\ ex_pos e' = ex_pos e /\ forall id, bl (ex_acc e') id = bl (ex_acc e) id.
Proof.
  intros V Hd Hp Hs H1 H2 N1 N2 N3.
  destruct (release_balances w Hw c ops e outs Hd Hp) as (e' & Hu & (a & -> & _) & _). set (e' := set_acc e a) in *.
  assert (HI : Inv c e').
  { unfold u_play in Hu. destruct (init c) as [e0|] eqn:E0; cbn [bind] in Hu; [|discriminate].
    eapply run_inv; [| |exact Hu]; [|eapply init_inv; [|exact E0]]; apply (vc_max _ V). }
  assert (Hb : ex_om e = ex_active e) by apply (inv_books _ _ HI).
  assert (Hf : ~ In (ex_next_id e) (ids (ex_active e))) by apply (inv_fresh _ _ HI).
  unfold v_step in H1, H2. cbn [g_step] in H1, H2.
  destruct (limit_new sd p q uid) as [l|] eqn:El; [|discriminate].
  apply map_out_fine in H1 as (o1 & H1 & Eo). injection Eo as <-. apply map_out_fine in H2 as (o2 & H2 & _).
  pose proof H1 as T. unfold g_submit_limit_order in T. cs T t1 E1. clear T. pose proof E1 as E1'. apply log_sub_elim in E1'.
  unfold g_cancel_limit_order, w_computed_order_margin in H2; cbv zeta in H2.
  cs H2 old F1. injection F1 as <-. cs H2 comp F2. cs H2 u F3. apply assert_done in F3. apply Z.eqb_eq in F3. subst comp.
  destruct (submit_elim c e l e1 o Hb Hf H1 F2) as (new & O & -> & ->).
  cbn [placed set_trk set_next_id set_om set_active set_acc ex_ms ex_next_id ex_acc ex_pos ex_om ex_active ex_trk] in H2.
  change (ex_next_id e) with (lo_id (pending e l)) in H2 at 1 2.
  rewrite remove_id_app in H2 by exact Hf. unfold om_remove in H2. rewrite Hb, remove_id_app in H2 by exact Hf. cbn [cbind] in H2.
  cs H2 om F4.
  assert (Em : w_order_margin w c (ex_active e) (ex_pos e) = ret (bl (ex_acc e) ORDER_MARGIN)).
  { destruct (r_om w c (ex_active e) (ex_pos e)) as [E|E]; rewrite E in F4 |- *; [discriminate|]. rewrite Hs. reflexivity. }
  destruct (rounds c sd p q uid l new n e) as (e4 & more & R & R1 & R2 & R3 & R4); try assumption.
  { intros y Hy. apply (inv_ids _ _ HI y Hy). } { apply (inv_next _ _ HI). }
  { unfold room. tauto. } { intros Ea. rewrite Ea in Hs. unfold order_margin, order_margin_internal in Hs; cbv zeta in Hs. rewrite Hd in Hs.
    change (sort_by_key (fun o : Z * Z => - fst o) (side_orders Buy [] ++ [])) with (@nil (Z * Z)) in Hs.
    change (sort_by_key (fun o : Z * Z => fst o) (side_orders Sell [] ++ [])) with (@nil (Z * Z)) in Hs.
    pose proof (vc_scale _ V) as Hsc. destruct (ex_pos e); cbn in Hs; injection Hs as <-; unfold dmul; cbn; destruct (c_scale c); reflexivity. }
  exists e4, more. split; [|auto]. unfold v_play, v_run, v_init in *.
  destruct (Wrapped.g_init VL c) as [[e0|]|]; cbn [cbind] in *; try discriminate.
  rewrite (g_run_app _ _ _ _ _ _ _ Hp), R. reflexivity.
Qed.
End Churn.
