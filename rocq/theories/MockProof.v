(** An exchange whose accounting knows no money. *)
From Verif Require Import Base Types Filters Accounting Currency Position OrderBook OrderMargin
  Risk MarketUpdate Tracker Exchange Spec SpecConfig SpecMargin ProofBase BookLemmas FillLemmas Ledger SpecLedger.
From Verif Require MarginProof.
From Coq Require Import Permutation.
Import MarginProof.

Lemma abind_done {A X Y} (m : @am A X) (k : X -> @am A Y) a b :
  abind m k a = Done b -> exists a1 x, m a = Done (a1, x) /\ k x a1 = Done b.
Proof. unfold abind. destruct (m a) as [[a1 x]|p]; [|discriminate]. eauto. Qed.
Lemma alift_done {A X} (m : outcome X) (a : A) a1 x : alift m a = Done (a1, x) -> m = Done x /\ a1 = a.
Proof. unfold alift. destruct m; cbn; [|discriminate]. intros H. injection H as <- <-. auto. Qed.
Lemma lift_bind {A X Y} (m : outcome X) (k : X -> @am A Y) a b :
  abind (alift m) k a = Done b -> exists x, m = Done x /\ k x a = Done b.
Proof. intros H. apply abind_done in H as (a1 & x & H & K). apply alift_done in H as [H ->]. eauto. Qed.

Section Mock.
Variable c : config.
Hypothesis V : valid_config c.
Hypothesis T : 0 <= ct_taker (c_spec c).

Definition posted (q p : Z) : Z := dmul (c_scale c) (value (c_kind c) (c_scale c) q p) (ct_imr (c_spec c)).
Lemma posted_mono q q' p : 0 < p -> q <= q' -> posted q p <= posted q' p.
Proof.
  intros P Q. pose proof (vc_scale c V). pose proof (vc_imr c V). unfold posted. apply dmul_mono_l; [lia| |lia]. apply value_mono; lia.
Qed.

(** Every order of a book needs at most what the book needs. *)
Lemma cost_in k s x l : 0 < s -> (forall y, In y l -> 0 <= snd y /\ 0 < fst y) -> In x l -> value k s (snd x) (fst x) <= cost k s l.
Proof.
  intros S. induction l as [|y l IH]; intros G H; [contradiction|]. rewrite cost_cons.
  assert (0 <= cost k s l) by (apply cost_nonneg; [exact S|]; intros z Z; apply G; right; exact Z).
  destruct H as [->|H]; [lia|]. assert (value k s (snd x) (fst x) <= cost k s l) by (apply IH; [|exact H]; intros z Z; apply G; right; exact Z).
  destruct (G y (or_introl eq_refl)). pose proof (value_nonneg k s (snd y) (fst y) S). lia.
Qed.
Lemma posted_req b o : good_book b -> In o b -> posted (lo_rem o) (lo_price o) <= req c b Neutral.
Proof.
  intros G I. pose proof (vc_scale c V) as S. pose proof (vc_imr c V) as R. unfold req, requirement. cbn [position_quantity].
  assert (P : forall sd, pos_list (sorted_side sd b)) by (intros sd; apply good_pos_list; exact G).
  assert (Q : forall sd x, In x (sorted_side sd b) -> 0 <= snd x /\ 0 < fst x).
  { intros sd x Hx. specialize (P sd x Hx). lia. }
  change (Z.max 0 (- 0)) with 0. change (Z.max 0 0) with 0. rewrite !hedge_0 by (intros x Hx; apply Q in Hx; lia).
  assert (J : In (lo_price o, lo_rem o) (sorted_side (lo_side o) b)).
  { apply (Permutation_in _ (Permutation_sym (proj1 (sorted_arranged (lo_side o) b)))). unfold pairs. apply in_flat_map. exists o.
    split; [exact I|]. destruct (side_eq_dec (lo_side o) (lo_side o)); [left; reflexivity | contradiction]. }
  pose proof (cost_in (c_kind c) (c_scale c) _ _ S (Q (lo_side o)) J) as C. cbn [fst snd] in C.
  unfold posted, dmul. apply Z.quot_le_mono; [lia|]. apply Z.mul_le_mono_nonneg_r; [lia|]. destruct (lo_side o); lia.
Qed.

Definition idle (e : exchange) : Prop :=
  ex_pos e = Neutral /\ ex_active e = ex_om e /\ good_book (ex_om e) /\ (forall o, In o (ex_om e) -> lo_id o < ex_next_id e) /\
  req c (ex_om e) Neutral <= 0.

Lemma margin_req b : good_book b -> order_margin c b Neutral = Done (req c b Neutral).
Proof. intros G. apply order_margin_internal_eq; [exact G|exact I|]. intros _. pose proof (vc_imr c V). lia. Qed.

Lemma mock_bal_bind {Y} id (k : Z -> @am unit Y) a : abind (bal mock id) k a = k 0 a.
Proof. reflexivity. Qed.
Lemma mock_pay {Y} d i x (k : unit -> @am unit Y) a b : abind (pay mock d i x) k a = Done b -> 0 < x /\ k tt a = Done b.
Proof.
  intros H. apply abind_done in H as (a1 & [] & H & K). apply lift_bind in H as (tx & H & K2). unfold transaction_new in H.
  apply bind_done in H as (? & H & _). apply assert_done in H. apply abind_done in K2 as (a2 & r & K2 & K3). cbn in K2.
  injection K2 as <- <-. cbn in K3. injection K3 as <-. split; [lia | exact K].
Qed.

Lemma mock_new q p f a b : a_inner_new mock c q p f a = Done b -> 0 < q /\ 0 < p /\ 0 < posted q p.
Proof.
  intros H. unfold a_inner_new in H. apply lift_bind in H as (? & H1 & H). apply lift_bind in H as (? & H2 & H).
  apply lift_bind in H as (v & H3 & H). apply mock_pay in H as [H _]. apply assert_done in H1, H2. apply convert_from_done in H3.
  subst v. split; [lia|]. split; [lia | exact H].
Qed.
Lemma mock_change q p sd f a b : a_change_position mock c Neutral q p sd f a = Done b -> 0 < q /\ 0 < p /\ 0 < posted q p.
Proof.
  intros H. unfold a_change_position in H. apply lift_bind in H as (? & _ & H). apply abind_done in H as (? & ? & _ & H).
  apply abind_done in H as (? & ? & H & _). eapply mock_new, H.
Qed.

Lemma mock_market e m a b e' r : idle e -> a_submit_market mock c e m a = Done (b, (e', r)) ->
  idle e' /\ exists err, r = Err err.
Proof.
  intros (P & A & G & N & R) H. unfold a_submit_market in H. apply lift_bind in H as (v & _ & H). destruct v as [[]|err].
  2:{ injection H as <- <- <-. split; [exact (conj P (conj A (conj G (conj N R)))) | eauto]. }
  change (abind (ask mock ?i) ?k ?x) with (k (Ok 0) x) in H. cbv beta iota in H.
  change (abind (ask mock ?i) ?k ?x) with (k (Ok 0) x) in H. cbv beta iota in H.
  apply lift_bind in H as (v & C & H).
  assert (J : idle (set_next_id (set_trk e (log_market_order_submission (ex_trk e))) (ex_next_id e + 1))).
  { refine (conj P (conj A (conj G (conj _ R)))). intros o O. apply N in O. cbn. lia. }
  destruct v as [[]|err].
  2:{ injection H as <- <- <-. split; [exact J | eauto]. }
  exfalso. cbn [ex_pos set_next_id set_trk] in C. rewrite P in C.
  assert (C' : check_market_open c (nm_qty m) (match nm_side m with Buy => ms_ask (ex_ms e) | Sell => ms_bid (ex_ms e) end) 0 = Done (Ok tt)).
  { destruct (nm_side m); exact C. }
  clear C. unfold check_market_open in C'. apply bind_done in C' as (v & Cv & C').
  apply abind_done in H as (? & ? & H & _). unfold a_settle in H. apply lift_bind in H as (? & H1 & H). apply lift_bind in H as (? & H2 & H).
  apply lift_bind in H as (w & _ & H). apply abind_done in H as (? & ? & H & _). cbn [ex_pos set_next_id set_trk] in H. rewrite P in H.
  apply mock_change in H as (Q1 & Q2 & Q3). cbn [fm_qty fm_avg market_into_filled ex_ms set_next_id set_trk] in Q1, Q2, Q3.
  apply convert_from_done in Cv.
  change (conv (c_kind c)) with (value (c_kind c)) in Cv.
  pose proof (vc_scale c V) as S. assert (0 <= v).
  { rewrite Cv. apply value_nonneg; [exact S| exact Q2 |]. lia. }
  pose proof (dmul_nonneg (c_scale c) v (ct_taker (c_spec c)) S ltac:(lia) T). unfold posted in Q3. rewrite <- Cv in Q3.
  destruct (Z.ltb_spec 0 (dmul (c_scale c) v (ct_imr (c_spec c)) + dmul (c_scale c) v (ct_taker (c_spec c)))) as [Lt|Lt]; [discriminate|].
  lia.
Qed.

Lemma mock_fill_one u e ids o a b : idle e -> In o (ex_om e) -> a_fill_one mock c u e ids o a = Done b -> b = (a, (e, ids, o)).
Proof.
  intros (P & A & G & N & R) I H. unfold a_fill_one in H. apply lift_bind in H as (f & _ & H). destruct f as [q|].
  2:{ injection H as <-. reflexivity. }
  exfalso. apply lift_bind in H as (? & _ & H). rewrite mock_bal_bind in H. apply lift_bind in H as (? & _ & H).
  apply lift_bind in H as ([o' filled] & F & H). apply order_fill_spec in F as (Q & -> & _).
  apply lift_bind in H as ([e1 ids1] & E & H). apply lift_bind in H as (v & _ & H). apply abind_done in H as (? & ? & H & _).
  assert (P1 : ex_pos e1 = Neutral).
  { destruct filled as [fo|]; [apply bind_done in E as (om' & _ & E); injection E as <- <-; exact P|].
    apply bind_done in E as (? & _ & E). apply bind_done in E as ([om2 res] & _ & E). destruct res; [|discriminate].
    injection E as <- <-. exact P. }
  rewrite P1 in H. apply mock_change in H as (Q1 & Q2 & Q3). cbn [lo_price after_fill] in Q2, Q3.
  pose proof (posted_req _ _ G I). pose proof (posted_mono q (lo_rem o) (lo_price o) Q2 ltac:(lia)). lia.
Qed.
Lemma mock_fill_loop u todo e ids a b : idle e -> (forall o, In o todo -> In o (ex_om e)) ->
  a_fill_loop mock c u e ids todo a = Done b -> b = (a, (e, ids, todo)).
Proof.
  intros J. revert ids a b. induction todo as [|o todo IH]; intros ids a b I H; cbn in H.
  { injection H as <-. reflexivity. }
  apply abind_done in H as (a1 & [[e1 ids1] o1] & H & K). apply (mock_fill_one _ _ _ _ _ _ J (I o (or_introl eq_refl))) in H.
  injection H as -> -> -> ->. apply abind_done in K as (a2 & [[e2 ids2] r2] & H & K).
  apply IH in H; [|intros x X; apply I; right; exact X]. injection H as -> -> -> ->. injection K as <-. reflexivity.
Qed.
Lemma mock_check e u a b e' : idle e -> a_check mock c e u a = Done (b, e') -> idle e' /\ ex_updates e' = [].
Proof.
  intros J H. assert (J0 : idle (set_updates e [])) by exact J. unfold a_check in H. destruct (negb (can_fill u)).
  { injection H as <- <-. split; [exact J0 | reflexivity]. }
  apply lift_bind in H as (? & _ & H). apply abind_done in H as (a1 & [[e1 ids] arena] & H & K).
  apply mock_fill_loop in H; [|exact J0|].
  2:{ destruct J0 as (_ & -> & _). auto. }
  injection H as -> -> -> ->. apply lift_bind in K as (act & K1 & K). cbn in K1. injection K1 as <-.
  apply lift_bind in K as (? & _ & K). apply abind_done in K as (? & ? & _ & K). apply abind_done in K as (? & ? & _ & K).
  apply abind_done in K as (? & ? & _ & K). injection K as <- <-. split; [exact J0 | reflexivity].
Qed.
Lemma mock_update e u a b e' r : idle e -> a_update mock c e u a = Done (b, (e', r)) -> idle e' /\ r = Ok [].
Proof.
  intros J H. unfold a_update in H. apply lift_bind in H as (ms & _ & H).
  set (e1 := set_ms e ms) in *. set (e2 := set_trk e1 _) in *. cbv zeta in H.
  destruct (should_trigger (ex_trig e2) (update_ts u)) as [trig fire]. cbv beta iota in H.
  apply abind_done in H as (a1 & e4 & H & K).
  assert (J4 : idle e4).
  { destruct fire; [|injection H as <- <-; exact J]. apply abind_done in H as (? & ? & _ & H). injection H as <- <-. exact J. }
  replace (ex_pos e4) with Neutral in K by (symmetry; apply J4). cbn [check_maintenance_margin] in K.
  apply abind_done in K as (a2 & e5 & H5 & K). apply mock_check in H5 as [J5 U]; [|exact J4]. injection K as <- <- <-.
  split; [exact J5|]. rewrite U. reflexivity.
Qed.

Lemma mock_append e o a b e' r : idle e -> 0 < lo_price o -> ~ In (lo_id o) (ids (ex_om e)) -> lo_id o < ex_next_id e ->
  req c (ex_om e ++ [o]) Neutral <= 0 -> a_append mock c e o a = Done (b, (e', r)) -> idle e'.
Proof.
  intros (P & A & G & N & R) Pr F Lt Rq H. unfold a_append in H. apply lift_bind in H as ([om' x] & U & H). destruct x as [[]|err].
  2:{ apply om_update_err in U as (-> & _). injection H as <- <- <-. exact (conj P (conj A (conj G (conj N R)))). }
  apply om_update_done in U as (Rem & U). apply get_by_id_none in F. destruct U as [(_ & -> & Len)|(old & Old & _)]; [|congruence].
  assert (Ins : book_insert active_capacity (ex_active (set_om e (ex_om e ++ [o]))) o = (ex_om e ++ [o], Ok None)).
  { cbn. rewrite A. unfold book_insert. rewrite F. pose proof (vc_max c V). destruct (Z.leb_spec active_capacity (Z.of_nat (length (ex_om e)))) as [C|C].
    - change active_capacity with 10000 in C. lia.
    - reflexivity. }
  rewrite Ins in H. cbv zeta in H.
  assert (J : idle (set_active (set_om e (ex_om e ++ [o])) (ex_om e ++ [o]))).
  { refine (conj P (conj eq_refl (conj _ (conj _ Rq)))).
    - intros y Y. cbn in Y. apply in_app_or in Y as [Y|[<-|[]]]; [apply G, Y | split; [exact Rem | exact Pr]].
    - intros y Y. cbn in Y |- *. apply in_app_or in Y as [Y|[<-|[]]]; [apply N, Y | exact Lt]. }
  apply lift_bind in H as (nom & _ & H). rewrite mock_bal_bind in H.
  destruct (nom ?= 0); [injection H as <- <- <-; exact J| |];
    (apply mock_pay in H as [_ H]; apply lift_bind in H as (? & _ & H); apply abind_done in H as (? & ? & _ & H);
     apply lift_bind in H as (? & _ & H); apply abind_done in H as (? & ? & _ & H); injection H as <- <- <-; exact J).
Qed.
Lemma mock_limit e o a b e' r : idle e -> 0 < nl_rem o -> 0 < nl_price o -> a_submit_limit mock c e o a = Done (b, (e', r)) -> idle e'.
Proof.
  intros J Rem Pr H. pose proof J as (P & A & G & N & R). unfold a_submit_limit in H. apply lift_bind in H as (v & _ & H). destruct v as [[]|err].
  2:{ injection H as <- <- <-. exact J. }
  apply lift_bind in H as (v & _ & H). destruct v as [[]|err].
  2:{ injection H as <- <- <-. exact J. }
  change (abind (ask mock ?i) ?k ?x) with (k (Ok 0) x) in H. cbv beta iota in H.
  set (order := limit_into_pending _ _ _) in *. set (e2 := set_next_id _ _) in *.
  assert (J2 : idle e2).
  { refine (conj P (conj A (conj G (conj _ R)))). intros y Y. apply N in Y. cbn. lia. }
  apply lift_bind in H as (v & C & H). destruct v as [[]|err].
  2:{ injection H as <- <- <-. exact J2. }
  destruct (marketable (ex_ms e2) order).
  { injection H as <- <- <-. exact J2. }
  apply abind_done in H as (a1 & [e3 x] & H & K).
  assert (J3 : idle e3).
  { eapply (mock_append e2 order); [exact J2|exact Pr| | | |exact H].
    - cbn. intros D. unfold ids in D. apply in_map_iff in D as (y & E & Y). apply N in Y. lia.
    - cbn. lia.
    - unfold check_limit_order in C. replace (ex_pos e2) with Neutral in C by (symmetry; exact P).
      assert (G2 : good_book (ex_om e ++ [order])).
      { intros y Y. apply in_app_or in Y as [Y|[<-|[]]]; [apply G, Y | split; [exact Rem | exact Pr]]. }
      change (ex_om e2) with (ex_om e) in *. rewrite with_order_eq, (margin_req _ G), (margin_req _ G2) in C. cbn [bind] in C.
      destruct (Z.ltb_spec (0 + req c (ex_om e) Neutral) (req c (ex_om e ++ [order]) Neutral)) as [Lt|Lt]; [discriminate|]. lia. }
  destruct x; injection K as <- <- <-; exact J3.
Qed.

Lemma mock_cancel e by_ a b e' r : idle e -> a_cancel mock c e by_ a = Done (b, (e', r)) -> idle e'.
Proof.
  intros J H. pose proof J as (P & A & G & N & R). unfold a_cancel in H. rewrite mock_bal_bind in H. apply lift_bind in H as (w1 & _ & H).
  apply lift_bind in H as (w2 & _ & H).
  destruct by_ as [id|uid].
  - destruct (remove_by_order_id (ex_active e) id) as [[o act']|] eqn:Rm; [|injection H as <- <- <-; exact J].
    assert (Q : Permutation (ex_om e) (o :: act')) by (rewrite <- A; apply remove_by_spec in Rm; tauto).
    apply lift_bind in H as (om' & O & H);
    assert (om' = act') by (unfold om_remove in O; cbn [ex_om set_active] in O; rewrite A in Rm; rewrite Rm in O; injection O as <-; reflexivity);
    subst om'; apply lift_bind in H as (nom & C & H); apply lift_bind in H as (z1 & Le & H); apply assert_done in Le;
    assert (G2 : good_book act') by (intros y Y; apply G; rewrite Q; right; exact Y);
    unfold computed_order_margin in C; cbn [ex_om ex_pos set_om set_active] in C; rewrite P, (margin_req _ G2) in C; injection C as <-;
    apply abind_done in H as (z2 & z3 & _ & H); apply lift_bind in H as (z4 & _ & H); apply abind_done in H as (z5 & z6 & _ & H);
    apply lift_bind in H as (z7 & _ & H); injection H as <- <- <-;
    refine (conj P (conj eq_refl (conj G2 (conj _ _)))); [intros y Y; apply N; cbn in Y; rewrite Q; right; exact Y | cbn; lia].
  - destruct (remove_by_user_order_id (ex_active e) uid) as [[o act']|] eqn:Rm; [|injection H as <- <- <-; exact J].
    assert (Q : Permutation (ex_om e) (o :: act')) by (rewrite <- A; apply remove_by_spec in Rm; tauto).
    apply lift_bind in H as (om' & O & H);
    assert (om' = act') by (unfold om_remove in O; cbn [ex_om set_active] in O; rewrite A in Rm; rewrite Rm in O; injection O as <-; reflexivity);
    subst om'; apply lift_bind in H as (nom & C & H); apply lift_bind in H as (z1 & Le & H); apply assert_done in Le;
    assert (G2 : good_book act') by (intros y Y; apply G; rewrite Q; right; exact Y);
    unfold computed_order_margin in C; cbn [ex_om ex_pos set_om set_active] in C; rewrite P, (margin_req _ G2) in C; injection C as <-;
    apply abind_done in H as (z2 & z3 & _ & H); apply lift_bind in H as (z4 & _ & H); apply abind_done in H as (z5 & z6 & _ & H);
    apply lift_bind in H as (z7 & _ & H); injection H as <- <- <-;
    refine (conj P (conj eq_refl (conj G2 (conj _ _)))); [intros y Y; apply N; cbn in Y; rewrite Q; right; exact Y | cbn; lia].
Qed.

Lemma mock_amend e id o a b e' r : idle e -> 0 < nl_price o -> a_amend mock c e id o a = Done (b, (e', r)) -> idle e'.
Proof.
  intros J Pr H. unfold a_amend in H. destruct (get_by_id (ex_active e) id) as [ex|].
  2:{ injection H as <- <- <-. exact J. }
  apply lift_bind in H as (tot & _ & H). destruct (_ <=? 0).
  - apply abind_done in H as (a1 & [e1 x] & H & K). apply mock_cancel in H; [|exact J].
    destruct x; [injection K as <- <- <-; exact H | discriminate].
  - apply lift_bind in H as (o' & So & H). unfold set_remaining_quantity in So. apply bind_done in So as (? & Sa & So).
    apply assert_done in Sa. injection So as <-.
    apply abind_done in H as (a1 & [e1 res] & H & K). apply mock_cancel in H; [|exact J].
    destruct res; [|injection K as <- <- <-; exact H]. eapply mock_limit; [exact H| | |exact K]; cbn; lia.
Qed.

Lemma limit_new_pos sd p q uid o : limit_new sd p q uid = Ok o -> 0 < nl_price o /\ 0 < nl_rem o.
Proof.
  unfold limit_new. destruct (Z.leb_spec p 0); [discriminate|]. destruct (Z.leb_spec q 0); [discriminate|].
  intros H1. injection H1 as <-. cbn. lia.
Qed.
Lemma mock_step e o a b e' r : idle e -> a_step mock c e o a = Done (b, (e', r)) -> idle e' /\ quiet r.
Proof.
  intros J H. destruct o as [u|sd q uid|sd p q uid|by_|id sd p q uid|u]; cbn [a_step] in H.
  - apply lift_bind in H as (w & _ & H). apply abind_done in H as (a1 & [e1 x] & H & K). injection K as <- <- <-.
    apply mock_update in H as [J1 ->]; [|exact J]. split; [exact J1 | reflexivity].
  - destruct (market_new sd q uid) as [m|err]; [|injection H as <- <- <-; split; [exact J | exact I]].
    apply abind_done in H as (a1 & [e1 x] & H & K). injection K as <- <- <-.
    apply mock_market in H as [J1 [err ->]]; [|exact J]. split; [exact J1 | exact I].
  - destruct (limit_new sd p q uid) as [m|err] eqn:Ln; [|injection H as <- <- <-; split; [exact J | exact I]].
    apply abind_done in H as (a1 & [e1 x] & H & K). injection K as <- <- <-. apply limit_new_pos in Ln as [? ?].
    apply mock_limit in H; [|assumption..]. split; [exact H | destruct x; exact I].
  - apply abind_done in H as (a1 & [e1 x] & H & K). injection K as <- <- <-.
    apply mock_cancel in H; [|exact J]. split; [exact H | destruct x; exact I].
  - destruct (limit_new sd p q uid) as [m|err] eqn:Ln; [|injection H as <- <- <-; split; [exact J | exact I]].
    apply abind_done in H as (a1 & [e1 x] & H & K). injection K as <- <- <-. apply limit_new_pos in Ln as [? ?].
    apply mock_amend in H; [|assumption..]. split; [exact H | destruct x; exact I].
  - apply lift_bind in H as (w & _ & H). apply abind_done in H as (a1 & e1 & H & K). injection K as <- <- <-.
    apply mock_check in H as [J1 _]; [|exact J]. split; [exact J1 | exact I].
Qed.
Lemma mock_run ops : forall e a b e' rs, idle e -> a_run mock c e ops a = Done (b, (e', rs)) -> idle e' /\ Forall quiet rs.
Proof.
  induction ops as [|o ops IH]; intros e a b e' rs J H; cbn [a_run] in H.
  { injection H as <- <- <-. split; [exact J | constructor]. }
  apply abind_done in H as (a1 & [e1 x] & H & K). apply mock_step in H as [J1 Q]; [|exact J].
  apply abind_done in K as (a2 & [e2 y] & H & K). apply IH in H as [J2 Qs]; [|exact J1]. injection K as <- <- <-.
  split; [exact J2 | constructor; assumption].
Qed.

Theorem mock_idle ops a e rs : a_play mock c ops = Done (a, (e, rs)) ->
  ex_pos e = Neutral /\ Forall quiet rs /\ (forall o, In o (ex_active e) -> posted (lo_rem o) (lo_price o) = 0).
Proof.
  intros H. unfold a_play in H. apply bind_done in H as ([a0 e0] & E & H). unfold a_init in E. apply bind_done in E as (t & _ & E).
  cbn in E. injection E as <- <-. apply mock_run in H as [(P & A & G & N & R) Q].
  - split; [exact P|]. split; [exact Q|]. rewrite A. intros o O. pose proof (posted_req _ _ G O). destruct (G _ O).
    pose proof (vc_scale c V). pose proof (vc_imr c V).
    assert (0 <= posted (lo_rem o) (lo_price o)) by (unfold posted; apply dmul_nonneg; [lia| |lia]; apply value_nonneg; lia). lia.
  - refine (conj eq_refl (conj eq_refl (conj (fun x (X : In x []) => match X with end) (conj (fun x (X : In x []) => match X with end) _)))). cbn. unfold req, requirement. cbn. lia.
Qed.
End Mock.
