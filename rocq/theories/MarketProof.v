(** Market updates: fills, quotes, liquidation. *)
From Coq Require Import Permutation Sorted.
From Verif Require Import ProofBase BookLemmas StepLemmas FillLemmas OpLemmas Inv Spec SpecBook SpecConfig SpecMarket
  LedgerProof FeeProof FilterProof MarginProof BookProof OrderProof.

(** ** SmartCandle *)
Lemma aggregate_find (f : Z -> bool) l : forall lastp sum,
  StronglySorted (fun a b => f (fst b) = true -> f (fst a) = true) l ->
  Forall (fun b => f (fst b) = true -> f lastp = true) l ->
  option_map snd (find (fun v : Z * Z => f (fst v)) (rev (aggregate_loop lastp sum l))) =
  if f lastp then Some (sum + sumZ (map snd (filter (fun v => f (fst v)) l))) else None.
Proof.
  induction l as [|[p q] l IH]; intros lastp sum Hs Hl; cbn [aggregate_loop].
  - cbn. destruct (f lastp); cbn; [f_equal; lia | reflexivity].
  - inversion Hs as [|? ? Hs' Hp]; subst. inversion Hl as [|? ? Hp0 Hl']; subst. cbn [fst] in *.
    destruct (Z.eqb_spec p lastp) as [->|Hne].
    + rewrite IH by assumption. cbn [filter fst]. destruct (f lastp); [|reflexivity]. cbn [map snd sumZ fold_right]. f_equal. unfold sumZ. lia.
    + cbn [rev]. 
      assert (K : forall (g : Z * Z -> bool) a b, option_map snd (find g (a ++ b)) =
        match option_map snd (find g a) with Some x => Some x | None => option_map snd (find g b) end).
      { intros g a b. induction a as [|y a IHa]; cbn; [reflexivity|]. destruct (g y); [reflexivity | exact IHa]. }
      rewrite K, IH; [|assumption | exact Hp]. cbn [filter fst]. destruct (f p) eqn:Ep.
      * rewrite (Hp0 eq_refl). cbn [map snd sumZ fold_right]. f_equal. unfold sumZ. lia.
      * assert (E : filter (fun v : Z * Z => f (fst v)) l = []).
        { clear -Hp Ep. induction l as [|x l IHl]; cbn; [reflexivity|]. inversion Hp; subst.
          destruct (f (fst x)) eqn:Ex; [exfalso; cbn in H1; (specialize (H1 Ex) || specialize (H1 eq_refl)); congruence | auto]. }
        rewrite E. cbn. destruct (f lastp); cbn; [f_equal; lia | reflexivity].
Qed.

Lemma aggregate_find_all (f : Z -> bool) l :
  StronglySorted (fun a b => f (fst b) = true -> f (fst a) = true) l ->
  option_map snd (find (fun v : Z * Z => f (fst v)) (rev (aggregate l))) =
  if existsb (fun v => f (fst v)) l then Some (sumZ (map snd (filter (fun v => f (fst v)) l))) else None.
Proof.
  destruct l as [|[p q] l]; [reflexivity|]. intros Hs. unfold aggregate. rewrite aggregate_find; [|exact Hs|].
  - inversion Hs as [|? ? Hs' Hp]; subst. cbn [fst] in Hp.
    assert (E : existsb (fun v : Z * Z => f (fst v)) ((p, q) :: l) = f p).
    { cbn [existsb fst]. destruct (f p) eqn:Ep; [reflexivity|]. cbn [orb]. clear -Hp Ep.
      induction l as [|x l IHl]; cbn; [reflexivity|]. inversion Hp; subst.
      destruct (f (fst x)) eqn:Ex; [exfalso; cbn in H1; (specialize (H1 Ex) || specialize (H1 eq_refl)); congruence | cbn; auto]. }
    rewrite E. destruct (f p); [f_equal; lia | reflexivity].
  - inversion Hs as [|? ? Hs' Hp]; subst. constructor; [auto | exact Hp].
Qed.

Lemma sumZ_perm a b : Permutation a b -> sumZ a = sumZ b.
Proof. unfold sumZ. induction 1; cbn; lia. Qed.
Lemma filter_perm {A} (f : A -> bool) a b : Permutation a b -> Permutation (filter f a) (filter f b).
Proof.
  induction 1; cbn; [constructor | destruct (f x); [constructor|]; assumption | destruct (f x), (f y); try apply perm_swap; reflexivity |].
  etransitivity; eassumption.
Qed.
Lemma existsb_perm {A} (f : A -> bool) a b : Permutation a b -> existsb f a = existsb f b.
Proof.
  intros H. destruct (existsb f a) eqn:E.
  - apply existsb_exists in E as (x & Hx & Hf). symmetry. apply existsb_exists. exists x. split; [|exact Hf]. eapply Permutation_in; eassumption.
  - symmetry. apply not_true_iff_false. intros E'. apply existsb_exists in E' as (x & Hx & Hf).
    apply not_true_iff_false in E. apply E, existsb_exists. exists x. split; [|exact Hf]. eapply Permutation_in; [symmetry|]; eassumption.
Qed.

Lemma trades_exists sd (f : Z -> bool) l :
  existsb (fun v => f (fst v)) (trades_of sd l) =
  existsb (fun t => (if side_eq_dec (tr_side t) sd then true else false) && f (tr_price t)) l.
Proof.
  unfold trades_of. induction l as [|t l IH]; cbn; [reflexivity|]. destruct (side_eq_dec (tr_side t) sd); cbn; rewrite IH; reflexivity.
Qed.
Lemma trades_sum sd (f : Z -> bool) l :
  map snd (filter (fun v => f (fst v)) (trades_of sd l)) =
  map tr_qty (filter (fun t => (if side_eq_dec (tr_side t) sd then true else false) && f (tr_price t)) l).
Proof.
  unfold trades_of. induction l as [|t l IH]; cbn; [reflexivity|].
  destruct (side_eq_dec (tr_side t) sd); cbn; [|exact IH]. destruct (f (tr_price t)); cbn; rewrite IH; reflexivity.
Qed.

Lemma fold_low l : forall a,
  let m := fold_left (fun acc t => if tr_price t <? acc then tr_price t else acc) l a in
  m <= a /\ (forall t, In t l -> m <= tr_price t).
Proof.
  induction l as [|t l IH]; intros a; cbn [fold_left]; [split; [lia | intros ? []]|].
  destruct (IH (if tr_price t <? a then tr_price t else a)) as [H1 H2]. split.
  - cbv zeta in *. destruct (Z.ltb_spec (tr_price t) a); lia.
  - intros x [<-|Hx]; [|auto]. cbv zeta in *. destruct (Z.ltb_spec (tr_price t) a); lia.
Qed.
Lemma fold_high l : forall a,
  let m := fold_left (fun acc t => if acc <? tr_price t then tr_price t else acc) l a in
  a <= m /\ (forall t, In t l -> tr_price t <= m).
Proof.
  induction l as [|t l IH]; intros a; cbn [fold_left]; [split; [lia | intros ? []]|].
  destruct (IH (if a <? tr_price t then tr_price t else a)) as [H1 H2]. split.
  - cbv zeta in *. destruct (Z.ltb_spec a (tr_price t)); lia.
  - intros x [<-|Hx]; [|auto]. cbv zeta in *. destruct (Z.ltb_spec a (tr_price t)); lia.
Qed.

Lemma option_map_snd_umin {A} (o : option (A * Z)) n :
  option_map (fun v => umin (snd v) n) o = option_map (fun q => Z.min q n) (option_map snd o).
Proof. destruct o as [[a q]|]; cbn; [rewrite umin_min|]; reflexivity. Qed.

Lemma sorted_weaken {A} (R R' : A -> A -> Prop) l :
  (forall a b, R a b -> R' a b) -> StronglySorted R l -> StronglySorted R' l.
Proof.
  intros H. induction 1 as [|a l Hs IH Hf]; constructor; [exact IH|]. eapply Forall_impl; [|exact Hf]. auto.
Qed.

Lemma filter_ext_all {A} (f g : A -> bool) l : (forall x, f x = g x) -> filter f l = filter g l.
Proof. intros H. induction l as [|x l IH]; cbn; [reflexivity|]. rewrite H, IH. reflexivity. Qed.
Lemma existsb_ext_all {A} (f g : A -> bool) l : (forall x, f x = g x) -> existsb f l = existsb g l.
Proof. intros H. induction l as [|x l IH]; cbn; [reflexivity|]. rewrite H, IH. reflexivity. Qed.

Lemma smart_exact dbg l b f sc o :
  smart_candle_new dbg l b f = Done sc ->
  smart_fills sc o = if existsb (crosses o) l then Some (Z.min (crossing_qty o l) (lo_rem o)) else None.
Proof.
  unfold smart_candle_new. destruct l as [|t0 l0]; [discriminate|]. remember (t0 :: l0) as l eqn:El. intros H.
  apply bind_done in H as [? [_ H]]. apply bind_done in H as [v [_ H]]. apply bind_done in H as [? [_ H]].
  apply bind_done in H as [? [_ H]]. injection H as <-.
  destruct (fold_low l (tr_price t0)) as [_ Hlow]. destruct (fold_high l (tr_price t0)) as [_ Hhigh]. cbv zeta in Hlow, Hhigh.
  unfold smart_fills, crossing_qty. cbn [sc_low sc_high sc_buys sc_sells].
  set (low := fold_left _ _ _) in Hlow |- *. set (high := fold_left _ _ _) in Hhigh |- *.
  destruct (lo_side o) eqn:Es.
  - assert (Hc : forall t, crosses o t = (if side_eq_dec (tr_side t) Sell then true else false) && (tr_price t <? lo_price o)).
    { intros t. unfold crosses, beyond. rewrite Es. destruct (tr_side t); cbn; reflexivity. }
    rewrite (existsb_ext_all _ _ _ Hc), (filter_ext_all _ _ _ Hc).
    destruct (Z.leb_spec (lo_price o) low) as [Hle|Hgt].
    + replace (existsb _ l) with false; [reflexivity|]. symmetry. apply not_true_iff_false. intros E.
      apply existsb_exists in E as (t & Ht & E). specialize (Hlow t Ht). destruct (side_eq_dec (tr_side t) Sell); [|discriminate]. cbn in E. lia.
    + rewrite option_map_snd_umin, (aggregate_find_all (fun p => p <? lo_price o)).
      * rewrite (existsb_perm _ _ _ (sort_perm (fun x : Z * Z => fst x) _)).
        rewrite (sumZ_perm _ _ (Permutation_map snd (filter_perm _ _ _ (sort_perm (fun x : Z * Z => fst x) _)))).
        rewrite (trades_exists Sell (fun p => p <? lo_price o)), (trades_sum Sell (fun p => p <? lo_price o)).
        destruct (existsb _ l); reflexivity.
      * eapply sorted_weaken; [|apply sort_sorted]. cbn. intros y z Hyz Hz. lia.
  - assert (Hc : forall t, crosses o t = (if side_eq_dec (tr_side t) Buy then true else false) && (lo_price o <? tr_price t)).
    { intros t. unfold crosses, beyond. rewrite Es. destruct (tr_side t); cbn; reflexivity. }
    rewrite (existsb_ext_all _ _ _ Hc), (filter_ext_all _ _ _ Hc).
    destruct (Z.leb_spec high (lo_price o)) as [Hle|Hgt].
    + replace (existsb _ l) with false; [reflexivity|]. symmetry. apply not_true_iff_false. intros E.
      apply existsb_exists in E as (t & Ht & E). specialize (Hhigh t Ht). destruct (side_eq_dec (tr_side t) Buy); [|discriminate]. cbn in E. lia.
    + rewrite option_map_snd_umin, (aggregate_find_all (fun p => lo_price o <? p)).
      * rewrite (existsb_perm _ _ _ (sort_perm (fun x : Z * Z => - fst x) _)).
        rewrite (sumZ_perm _ _ (Permutation_map snd (filter_perm _ _ _ (sort_perm (fun x : Z * Z => - fst x) _)))).
        rewrite (trades_exists Buy (fun p => lo_price o <? p)), (trades_sum Buy (fun p => lo_price o <? p)).
        destruct (existsb _ l); reflexivity.
      * eapply sorted_weaken; [|apply sort_sorted]. cbn. intros y z Hyz Hz. lia.
Qed.

(** ** Feeding trades one by one *)
Lemma order_fill_done s o q ts :
  0 < q <= lo_rem o -> 0 <= lo_filled_qty o ->
  order_fill s o q ts = Done (after_fill s o q, if q =? lo_rem o then Some (done_fill o q ts) else None).
Proof.
  intros Hq Hf. unfold order_fill, assert, after_fill, done_fill, lo_filled_qty in *.
  destruct (Z.leb_spec q (lo_rem o)); [|lia]. cbn [bind]. destruct (Z.ltb_spec 0 q); [|lia]. cbn [bind].
  destruct (lo_filled o) as [|cum avg].
  - destruct (q =? lo_rem o); reflexivity.
  - unfold new_weighted_price, ddiv, assert. destruct (Z.eqb_spec (cum + q) 0); [lia|]. cbn [negb bind].
    replace (lo_rem o - q =? 0) with (q =? lo_rem o) by lia. destruct (q =? lo_rem o); reflexivity.
Qed.

Lemma crossing_nonneg o l : (forall t, In t l -> 0 < tr_qty t) ->
  0 <= crossing_qty o l /\ (existsb (crosses o) l = true -> 0 < crossing_qty o l).
Proof.
  intros H. unfold crossing_qty, sumZ. induction l as [|t l IH]; cbn; [lia|].
  destruct IH as [IH1 IH2]; [intros; apply H; right; assumption|]. specialize (H t (or_introl eq_refl)).
  destruct (crosses o t); cbn; lia.
Qed.
Lemma crossing_none o l : existsb (crosses o) l = false -> crossing_qty o l = 0.
Proof.
  unfold crossing_qty, sumZ. induction l as [|t l IH]; cbn; [reflexivity|]. destruct (crosses o t); cbn; [discriminate | exact IH].
Qed.
Lemma crossing_perm o a b : Permutation a b -> crossing_qty o a = crossing_qty o b.
Proof. intros H. apply sumZ_perm, Permutation_map, filter_perm, H. Qed.

Lemma trade_fills_eq dbg t o q :
  trade_fills dbg t o = Done q -> q = if crosses o t then Some (Z.min (tr_qty t) (lo_rem o)) else None.
Proof.
  unfold trade_fills. intros H. apply bind_done in H as [? [_ H]]. apply bind_done in H as [? [_ H]]. injection H as <-.
  unfold crosses, beyond. rewrite umin_min. destruct (lo_side o), (tr_side t); reflexivity.
Qed.
Lemma trade_fills_done dbg t o :
  0 < tr_qty t -> 0 < lo_rem o ->
  trade_fills dbg t o = Done (if crosses o t then Some (Z.min (tr_qty t) (lo_rem o)) else None).
Proof.
  intros H1 H2. destruct (trade_fills dbg t o) as [q|w] eqn:E.
  - apply trade_fills_eq in E. subst q. reflexivity.
  - exfalso. unfold trade_fills in E. destruct (Z.ltb_spec 0 (tr_qty t)); [|lia]. destruct (Z.ltb_spec 0 (lo_rem o)); [|lia].
    rewrite debug_assert_true in E. cbn [bind] in E. rewrite debug_assert_true in E. cbn [bind] in E. discriminate E.
Qed.

Lemma feed_total dbg s l : forall o,
  (forall t, In t l -> 0 < tr_qty t) -> 0 < lo_rem o -> 0 <= lo_filled_qty o ->
  feed dbg s o l = Done (Z.min (crossing_qty o l) (lo_rem o)).
Proof.
  induction l as [|t l IH]; intros o Ht Hr Hf.
  - cbn. f_equal. unfold crossing_qty. cbn. lia.
  - cbn [feed limit_order_filled]. rewrite trade_fills_done by (auto; apply Ht; left; reflexivity). cbn [bind].
    assert (H0 : 0 < tr_qty t) by (apply Ht; left; reflexivity).
    assert (Ht' : forall x, In x l -> 0 < tr_qty x) by (intros; apply Ht; right; assumption).
    assert (Hs : crossing_qty o (t :: l) = (if crosses o t then tr_qty t else 0) + crossing_qty o l).
    { unfold crossing_qty, sumZ. cbn. destruct (crosses o t); cbn; lia. }
    rewrite Hs. destruct (crosses o t) eqn:Ec; [|rewrite IH by assumption; f_equal; lia].
    rewrite order_fill_done; [|lia | assumption]. cbn [bind].
    pose proof (crossing_nonneg o l Ht') as [Hn _].
    destruct (Z.eqb_spec (Z.min (tr_qty t) (lo_rem o)) (lo_rem o)).
    + f_equal. lia.
    + rewrite IH; [| assumption | cbn; lia | rewrite after_fill_qty; lia].
      assert (E : crossing_qty (after_fill s o (Z.min (tr_qty t) (lo_rem o))) l = crossing_qty o l).
      { reflexivity. }
      rewrite E. cbn [bind after_fill lo_rem]. f_equal. lia.
Qed.

Lemma smart_sequential dbg dbg' s l l' b f sc o :
  smart_candle_new dbg l b f = Done sc -> Permutation l l' -> (forall t, In t l -> 0 < tr_qty t) ->
  0 < lo_rem o -> 0 <= lo_filled_qty o ->
  feed dbg' s o l' = Done (match smart_fills sc o with Some q => q | None => 0 end).
Proof.
  intros Hs Hp Hq Hr Hf. rewrite feed_total; [| |assumption|assumption].
  - rewrite (smart_exact _ _ _ _ _ o Hs), <- (crossing_perm o l l' Hp). destruct (existsb (crosses o) l) eqn:E; [reflexivity|].
    rewrite crossing_none by assumption. f_equal. lia.
  - intros t Ht. apply Hq. eapply Permutation_in; [symmetry|]; eassumption.
Qed.

(** ** Fills of an update *)
Lemma fillq_touched c ru u o q :
  build_update (c_dbg c) ru = Done u -> limit_order_filled (c_dbg c) u o = Done q -> q = touched ru o.
Proof.
  destruct ru as [b|t|k|l b f]; cbn [build_update]; intros Hb H.
  - injection Hb as <-. discriminate.
  - injection Hb as <-. apply trade_fills_eq in H. exact H.
  - injection Hb as <-. cbn in H. unfold candle_fills in H. apply bind_done in H as [? [_ H]]. injection H as <-.
    cbn. unfold beyond. destruct (lo_side o); reflexivity.
  - apply bind_done in Hb as [sc [Hs Hb]]. injection Hb as <-. cbn in H. injection H as <-. cbn. apply (smart_exact _ _ _ _ _ _ Hs).
Qed.

Lemma time_of_update dbg ru u : build_update dbg ru = Done u -> update_ts u = time_of ru.
Proof.
  destruct ru as [b|t|k|l b f]; cbn [build_update]; intros Hb; try (injection Hb as <-; reflexivity).
  apply bind_done in Hb as [sc [Hs Hb]]. injection Hb as <-. unfold smart_candle_new in Hs.
  destruct l as [|t0 l]; [discriminate|]. apply bind_done in Hs as [? [_ Hs]]. apply bind_done in Hs as [? [_ Hs]].
  apply bind_done in Hs as [? [_ Hs]]. apply bind_done in Hs as [? [_ Hs]]. injection Hs as <-. cbn.
  destruct l as [|t1 l]; [reflexivity|]. clear. revert t1. induction l as [|t2 l IH]; intros; cbn; [reflexivity|]. apply IH.
Qed.

Lemma quote_of_update dbg ru u m : build_update dbg ru = Done u ->
  ms_bid (update_market_state u m) = fst (quote_after ru m) /\ ms_ask (update_market_state u m) = snd (quote_after ru m).
Proof.
  unfold quote_after. destruct ru as [b|t|k|l b f]; cbn [build_update]; intros Hb; try (injection Hb as <-; cbn; auto).
  apply bind_done in Hb as [sc [Hs Hb]]. injection Hb as <-. unfold smart_candle_new in Hs.
  destruct l as [|t0 l]; [discriminate|]. apply bind_done in Hs as [? [_ Hs]]. apply bind_done in Hs as [? [_ Hs]].
  apply bind_done in Hs as [? [_ Hs]]. apply bind_done in Hs as [? [_ Hs]]. injection Hs as <-. cbn. auto.
Qed.

Lemma fill_event_report s o q ts : fill_event s o q ts = reported_as s o q ts.
Proof.
  unfold fill_event, reported_as, done_fill, after_fill, lo_filled_qty. destruct (q =? lo_rem o); [reflexivity|].
  destruct (lo_filled o); reflexivity.
Qed.

Lemma flat_map_ext_in {A B} (f g : A -> list B) l : (forall x, In x l -> f x = g x) -> flat_map f l = flat_map g l.
Proof.
  intros H. induction l as [|x l IH]; cbn; [reflexivity|]. rewrite H by (left; reflexivity). rewrite IH; [reflexivity|].
  intros; apply H; right; assumption.
Qed.

Lemma fills_ledger c u l e e' :
  fills c u e l e' -> pos_ok (ex_pos e) ->
  ledger_abs (ex_acc e') (ex_pos e') =
  fold_left (apply_fill (c_kind c) (c_scale c))
    (flat_map (fun o => match fillq c u o with Some q => [fill_of c o q] | None => [] end) l)
    (ledger_abs (ex_acc e) (ex_pos e)) /\
  (forall o q, In o l -> fillq c u o = Some q -> 0 < q <= lo_rem o).
Proof.
  induction 1 as [|e o l e' Hn Hl IH|e o q e1 l e' Hq He Hl IH]; intros Hp.
  - split; [reflexivity | intros ? ? []].
  - cbn [flat_map]. rewrite Hn. destruct (IH Hp) as [H1 H2]. split; [exact H1|]. intros x y [<-|Hx] Hy; [congruence | eauto].
  - cbn [flat_map]. rewrite Hq. cbn [app fold_left]. rewrite <- (fe_ledger _ _ _ _ _ _ Hp He).
    destruct (fe_acc _ _ _ _ _ _ He) as (acc1 & n & Hcp & _).
    destruct IH as [H1 H2]; [eapply cp_pos_ok; eassumption|]. split; [exact H1|].
    intros x y [<-|Hx] Hy; [|eauto]. rewrite Hq in Hy. injection Hy as <-. apply (fe_q _ _ _ _ _ _ He).
Qed.

Lemma statement_abs e : statement_of e = ledger_abs (ex_acc e) (ex_pos e).
Proof. reflexivity. Qed.

Lemma check_active_effect c e ru u e' :
  Inv c e -> build_update (c_dbg c) ru = Done u -> check_active_orders c e u = Done e' ->
  ex_updates e' = reports (c_scale c) ru (ex_active e) /\
  statement_of e' = fold_left (apply_fill (c_kind c) (c_scale c)) (caused c ru (ex_active e)) (statement_of e) /\
  (forall o q, In o (ex_active e) -> touched ru o = Some q -> 0 < q <= lo_rem o) /\
  ex_ms e' = ex_ms e /\ ex_trig e' = ex_trig e /\ ex_next_id e' = ex_next_id e.
Proof.
  intros I Hb H. pose proof (inv_pos _ _ I) as Hpo. apply check_active_spec in H as [(Hc & ->)|(Hc & e1 & act & _ & Hq & Hf & _ & -> & _)].
  - assert (E : forall o, touched ru o = None).
    { intros o. destruct ru; cbn [build_update] in Hb; try (injection Hb as <-); try discriminate; [reflexivity|].
      apply bind_done in Hb as [? [_ Hb]]. injection Hb as <-. discriminate. }
    assert (E1 : reports (c_scale c) ru (ex_active e) = []).
    { unfold reports. induction (ex_active e) as [|o l IH]; cbn; [reflexivity|]. rewrite E. exact IH. }
    assert (E2 : caused c ru (ex_active e) = []).
    { clear E1. unfold caused. induction (ex_active e) as [|o l IH]; cbn; [reflexivity|]. rewrite E. exact IH. }
    rewrite E1, E2. cbn. repeat split; try reflexivity; rewrite E in *; discriminate.
  - assert (E : forall o, In o (ex_active e) -> fillq c u o = touched ru o).
    { intros o Ho. eapply fillq_touched; [exact Hb | apply Hq; exact Ho]. }
    destruct (fills_ledger _ _ _ _ _ Hf Hpo) as [H1 H2].
    destruct (fills_stable _ _ _ _ _ Hf) as (S1 & S2 & S3 & S4 & S5). cbn [set_active ex_updates ex_acc ex_pos ex_ms ex_trig ex_next_id] in *.
    split; [|split; [|split; [|auto]]].
    + rewrite S5. cbn [set_updates ex_updates app]. unfold reports. apply flat_map_ext_in. intros o Ho.
      rewrite event_eq, (E o Ho). destruct (touched ru o); [|reflexivity]. rewrite fill_event_report, (time_of_update _ _ _ Hb). reflexivity.
    + rewrite !statement_abs. cbn [set_active ex_acc ex_pos]. rewrite H1. cbn [set_updates ex_acc ex_pos]. f_equal.
      unfold caused. apply flat_map_ext_in. intros o Ho. rewrite (E o Ho). reflexivity.
    + intros o q Ho Ht. apply (H2 o q Ho). rewrite (E o Ho). exact Ht.
Qed.

(** ** Liquidation threshold *)
Lemma due_check c pos bid ask :
  0 < c_scale c -> 0 <= ct_mm (c_spec c) <= c_scale c -> 0 <= position_entry_price pos ->
  (exists err, check_maintenance_margin c bid ask pos = Err err) <-> due c pos bid ask.
Proof.
  intros Hs Hm He. unfold check_maintenance_margin, due, liquidation_price_long, liquidation_price_short, dmul.
  destruct pos as [|i|i]; cbn in He.
  - split; [intros [? H]; discriminate | contradiction].
  - set (x := pi_entry i * (c_scale c - ct_mm (c_spec c))). assert (Hx : 0 <= x) by (subst x; nia).
    rewrite Z.quot_div_nonneg by lia. pose proof (Z.div_mod x (c_scale c) ltac:(lia)). pose proof (Z.mod_pos_bound x (c_scale c) Hs).
    destruct (Z.ltb_spec bid (x / c_scale c)); (split; [intros [? E]; try discriminate; nia | intros; eauto; exfalso; nia]).
  - set (x := pi_entry i * (c_scale c + ct_mm (c_spec c))). assert (Hx : 0 <= x) by (subst x; nia).
    rewrite Z.quot_div_nonneg by lia. pose proof (Z.div_mod x (c_scale c) ltac:(lia)). pose proof (Z.mod_pos_bound x (c_scale c) Hs).
    destruct (Z.ltb_spec (x / c_scale c) ask); (split; [intros [? E]; try discriminate; nia | intros; eauto; exfalso; nia]).
Qed.

Lemma average_nonneg s p0 w0 p1 w1 : 0 < s -> 0 <= p0 -> 0 <= w0 -> 0 <= p1 -> 0 <= w1 -> 0 <= weighted s p0 w0 p1 w1.
Proof.
  intros. unfold weighted. destruct (Z.eq_dec (w0 + w1) 0) as [->|]; [rewrite Zquot_0_r; lia|].
  apply quot_nonneg; [|lia]. unfold dmul. assert (0 <= Z.quot (p0 * w0) s) by (apply quot_nonneg; nia).
  assert (0 <= Z.quot (p1 * w1) s) by (apply quot_nonneg; nia). nia.
Qed.
