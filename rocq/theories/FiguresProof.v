(** What the statistics of the account tracker are fed. *)
From Coq Require Import QArith.
From Verif Require Import ProofBase StepLemmas OpLemmas FillLemmas Inv Spec SpecMarket SpecTrack SpecStats OrderProof HealthProof LiqProof StatsProof SoundProof
  Untracked SpecQuiet UntrackedProof Tracked SpecTracked TrackedProof TrackedFull Float FloatStats Figures SpecFigures.
Open Scope Z_scope.

Lemma loses_flt a : flt a zero = loses a.
Proof.
  destruct a as [|[]|[n d]]; try reflexivity. cbn. unfold Qle_bool. cbn.
  rewrite Z.mul_1_r. destruct (Z.leb_spec 0 n), (Z.ltb_spec n 0); try reflexivity; lia.
Qed.

Section Full.
Context (F : features).
Notation f32l := (map (f32_of F)).

Lemma fed_app {S} (g : S -> float -> outcome S) l : forall s l', fed g s (l ++ l') = (s1 <- fed g s l ;; fed g s1 l').
Proof. induction l as [|x l IH]; intros; cbn [app fed bind]; [reflexivity|]. destruct (g s x); cbn [bind]; [apply IH | reflexivity]. Qed.

(** The statistics of the balances from any state on. *)
Definition stats_from (t t' : full F) (xs : list float) : Prop :=
  fed (dd_update F) (ft_dd F t) xs = Done (ft_dd F t') /\ fed (ln_update F) (ft_ln F t) xs = Done (ft_ln F t') /\
  exists rs, returns_of F (ft_ln F t) xs = Done rs /\
    fed (wf_update F) (ft_stats F t) rs = Done (ft_stats F t') /\ fed (wf_update F) (ft_neg_stats F t) (filter loses rs) = Done (ft_neg_stats F t') /\
    (fx_quantiles F = true -> fed (qg_add F) (ft_user_q F t) rs = Done (ft_user_q F t')).
Definition market_from (t t' : full F) (ms : list float) : Prop :=
  fx_quantiles F = true -> fed (ln_update F) (ft_market_ln F t) ms = Done (ft_market_ln F t') /\
  exists rs, returns_of F (ft_market_ln F t) ms = Done rs /\ fed (qg_add F) (ft_market_q F t) rs = Done (ft_market_q F t').

Lemma sample_fed t b mid t' : full_sample F t b mid = Done t' ->
  ft_num F t' = tracker_sample (ft_num F t) (balances_sum b) /\ ft_market_dd F t' = ft_market_dd F t /\
  stats_from t t' [f32_of F (balances_sum b)] /\ market_from t t' [f32_of F mid].
Proof.
  unfold full_sample. intros H. apply bind_done in H as (dd & H1 & H). apply bind_done in H as (ln & H2 & H).
  apply bind_done in H as ([[st neg] uq] & H3 & H). apply bind_done in H as ([mln mq] & H4 & H). injection H as <-. cbn.
  split; [reflexivity|]. split; [reflexivity|]. split.
  - unfold stats_from. cbn. rewrite H1, H2. cbn [bind]. refine (conj eq_refl (conj eq_refl _)).
    destruct (ln_last F ln) as [r|].
    + apply bind_done in H3 as (a & A & H3). apply bind_done in H3 as (b0 & B & H3). apply bind_done in H3 as (q & C & H3). injection H3 as <- <- <-.
      exists [r]. cbn. rewrite A, loses_flt in *. cbn. refine (conj eq_refl (conj eq_refl (conj _ _))).
      * destruct (loses r); cbn; rewrite ?B; reflexivity.
      * intros Q. rewrite Q in C. rewrite C. reflexivity.
    + injection H3 as <- <- <-. exists []. repeat split.
  - intros Q. rewrite Q in H4. apply bind_done in H4 as (m1 & A & H4). apply bind_done in H4 as (m2 & B & H4). injection H4 as <- <-.
    cbn. rewrite A. cbn. refine (conj eq_refl _). destruct (ln_last F m1) as [r|]; [exists [r] | exists []; injection B as <-]; (refine (conj eq_refl _)); [cbn; rewrite B|]; reflexivity.
Qed.
Lemma returns_app l : forall s l', returns_of F s (l ++ l') =
  (s1 <- fed (ln_update F) s l ;; a <- returns_of F s l ;; b <- returns_of F s1 l' ;; Done (a ++ b)).
Proof.
  induction l as [|x l IH]; intros; cbn [app returns_of fed bind].
  - destruct (returns_of F s l'); reflexivity.
  - destruct (ln_update F s x) as [s1|]; cbn [bind]; [|reflexivity]. rewrite IH. destruct (fed _ s1 l) as [s2|]; cbn [bind]; [|reflexivity].
    destruct (returns_of F s1 l) as [a|]; cbn [bind]; [|reflexivity]. destruct (returns_of F s2 l') as [b|]; cbn [bind]; [|reflexivity].
    destruct (ln_last F s1); reflexivity.
Qed.
Lemma stats_trans t1 t2 t3 xs ys : stats_from t1 t2 xs -> stats_from t2 t3 ys -> stats_from t1 t3 (xs ++ ys).
Proof.
  intros (A1 & A2 & rs & A3 & A4 & A5 & A6) (B1 & B2 & rs' & B3 & B4 & B5 & B6). unfold stats_from. rewrite !fed_app, A1, A2. cbn [bind].
  refine (conj B1 (conj B2 _)). exists (rs ++ rs'). rewrite returns_app, A2. cbn [bind]. rewrite A3. cbn [bind]. rewrite B3. cbn [bind].
  rewrite filter_app, !fed_app, A4, A5. cbn [bind]. refine (conj eq_refl (conj B4 (conj B5 _))). intros Q. rewrite (A6 Q). exact (B6 Q).
Qed.
Lemma market_trans t1 t2 t3 xs ys : market_from t1 t2 xs -> market_from t2 t3 ys -> market_from t1 t3 (xs ++ ys).
Proof.
  intros A B Q. destruct (A Q) as (A1 & rs & A2 & A3). destruct (B Q) as (B1 & rs' & B2 & B3). rewrite fed_app, A1. cbn [bind]. refine (conj B1 _).
  exists (rs ++ rs'). rewrite returns_app, A1. cbn [bind]. rewrite A2. cbn [bind]. rewrite B2. cbn [bind]. rewrite fed_app, A3. refine (conj eq_refl B3).
Qed.
Lemma stats_nothing t t' : ft_dd F t' = ft_dd F t -> ft_ln F t' = ft_ln F t -> ft_stats F t' = ft_stats F t -> ft_neg_stats F t' = ft_neg_stats F t ->
  ft_user_q F t' = ft_user_q F t -> stats_from t t' [].
Proof. intros A B C D E. unfold stats_from. rewrite A, B, C, D, E. refine (conj eq_refl (conj eq_refl _)). exists []. repeat split. Qed.
Lemma market_nothing t t' : ft_market_ln F t' = ft_market_ln F t -> ft_market_q F t' = ft_market_q F t -> market_from t t' [].
Proof. intros A B _. rewrite A, B. refine (conj eq_refl _). exists []. repeat split. Qed.

Lemma hook_fed c t ev t' : full_hook F c t ev = Done t' ->
  full_tracker c (ft_num F t) ev = Done (ft_num F t') /\ fed (dd_update F) (ft_market_dd F t) (f32l (mids [ev])) = Done (ft_market_dd F t') /\
  stats_from t t' (f32l (sums [ev])) /\ market_from t t' (f32l (sampled_mids [ev])).
Proof.
  assert (K : forall n, full_tracker c (ft_num F t) ev = Done n ->
    let t' := {| ft_num := n; ft_ln := ft_ln F t; ft_dd := ft_dd F t; ft_market_dd := ft_market_dd F t; ft_stats := ft_stats F t;
              ft_neg_stats := ft_neg_stats F t; ft_user_q := ft_user_q F t; ft_market_ln := ft_market_ln F t; ft_market_q := ft_market_q F t |} in
    full_tracker c (ft_num F t) ev = Done (ft_num F t') /\ fed (dd_update F) (ft_market_dd F t) [] = Done (ft_market_dd F t') /\
    stats_from t t' [] /\ market_from t t' []).
  { intros n E. cbv zeta. rewrite E. refine (conj eq_refl (conj eq_refl (conj _ _))); [apply stats_nothing | apply market_nothing]; reflexivity. }
  destruct ev as [m|b mid|o| |fu q|o| |sd p q]; cbn [full_hook];
    try (intros H; apply bind_done in H as (n & H1 & H); injection H as <-; exact (K _ H1)); intros H.
  - unfold full_update in H. apply bind_done in H as (dd & H1 & H). injection H as <-. cbn.
    refine (conj eq_refl (conj _ (conj _ _))); [unfold mid_price in H1; rewrite H1; reflexivity | apply stats_nothing; reflexivity | apply market_nothing; reflexivity].
  - destruct (sample_fed _ _ _ _ H) as (A & B & C & D). cbn [full_tracker mids sums sampled_mids flat_map app map fed]. rewrite A, B.
    replace (ub_wallet b + ub_pm b + ub_om b) with (balances_sum b) by reflexivity. refine (conj eq_refl (conj eq_refl (conj C D))).
Qed.
Lemma mids_cons ev l : mids (ev :: l) = mids [ev] ++ mids l.
Proof. unfold mids. cbn [flat_map]. rewrite app_nil_r. reflexivity. Qed.
Lemma sums_cons ev l : sums (ev :: l) = sums [ev] ++ sums l.
Proof. unfold sums. cbn [flat_map]. rewrite app_nil_r. reflexivity. Qed.
Lemma sampled_cons ev l : sampled_mids (ev :: l) = sampled_mids [ev] ++ sampled_mids l.
Proof. unfold sampled_mids. cbn [flat_map]. rewrite app_nil_r. reflexivity. Qed.
Lemma replay_fed c l : forall t t', replay (full_hook F c) t l = Done t' ->
  replay (full_tracker c) (ft_num F t) l = Done (ft_num F t') /\ fed (dd_update F) (ft_market_dd F t) (f32l (mids l)) = Done (ft_market_dd F t') /\
  stats_from t t' (f32l (sums l)) /\ market_from t t' (f32l (sampled_mids l)).
Proof.
  induction l as [|ev l IH]; intros t t' H; cbn [replay] in H.
  - injection H as <-. refine (conj eq_refl (conj eq_refl (conj _ _))); [apply stats_nothing | apply market_nothing]; reflexivity.
  - apply bind_done in H as (t1 & H1 & H). destruct (hook_fed _ _ _ _ H1) as (A1 & A2 & A3 & A4). destruct (IH _ _ H) as (B1 & B2 & B3 & B4).
    cbn [replay]. rewrite A1. cbn [bind]. rewrite mids_cons, sums_cons, sampled_cons, !map_app, fed_app, A2.
    refine (conj B1 (conj B2 (conj _ _))); [eapply stats_trans | eapply market_trans]; eassumption.
Qed.

(** Trackers that do not panic. *)
Lemma hook_answers c t ev n : answers F -> full_tracker c (ft_num F t) ev = Done n -> exists t', full_hook F c t ev = Done t' /\ ft_num F t' = n.
Proof.
  intros (A & B & C & D) H.
  destruct ev as [m|b mid|o| |fu q|o| |sd p q]; cbn [full_hook];
    try (rewrite H; cbn [bind]; eexists; split; [reflexivity | reflexivity]).
  - unfold full_update. destruct (B (ft_market_dd F t) (f32_of F (mid_price m))) as [s ->]. cbn [bind]. eexists. split; [reflexivity|].
    cbn in H |- *. injection H as <-. reflexivity.
  - cbn in H. injection H as <-. unfold full_sample. cbv zeta. destruct (B (ft_dd F t) (f32_of F (balances_sum b))) as [s ->]. cbn [bind].
    destruct (A (ft_ln F t) (f32_of F (balances_sum b))) as [ln ->]. cbn [bind].
    assert (E : exists x, match ln_last F ln with
                    | None => Done (ft_stats F t, ft_neg_stats F t, ft_user_q F t)
                    | Some r =>
                        st <- wf_update F (ft_stats F t) r ;;
                        neg <- (if flt r zero then wf_update F (ft_neg_stats F t) r else Done (ft_neg_stats F t)) ;;
                        uq <- (if fx_quantiles F then qg_add F (ft_user_q F t) r else Done (ft_user_q F t)) ;;
                        Done (st, neg, uq)
                    end = Done x).
    { destruct (ln_last F ln) as [r|]; [|eexists; reflexivity]. destruct (C (ft_stats F t) r) as [s1 ->]. cbn [bind].
      assert (E : exists y, (if flt r zero then wf_update F (ft_neg_stats F t) r else Done (ft_neg_stats F t)) = Done y) by (destruct (flt r zero); [apply C | eexists; reflexivity]).
      destruct E as [y ->]. cbn [bind].
      assert (E : exists z, (if fx_quantiles F then qg_add F (ft_user_q F t) r else Done (ft_user_q F t)) = Done z) by (destruct (fx_quantiles F); [apply D | eexists; reflexivity]).
      destruct E as [z ->]. eexists. reflexivity. }
    destruct E as [[[st neg] uq] ->]. cbn [bind].
    destruct (fx_quantiles F); cbn [bind]; [|eexists; split; reflexivity].
    destruct (A (ft_market_ln F t) (f32_of F mid)) as [m1 ->]. cbn [bind]. destruct (ln_last F m1) as [r|]; cbn [bind]; [|eexists; split; reflexivity].
    destruct (D (ft_market_q F t) r) as [q ->]. eexists; split; reflexivity.
Qed.
Lemma replay_answers c l : answers F -> forall t n, replay (full_tracker c) (ft_num F t) l = Done n -> exists t', replay (full_hook F c) t l = Done t' /\ ft_num F t' = n.
Proof.
  intros A. induction l as [|ev l IH]; intros t n H; cbn [replay] in *; [injection H as <-; eexists; split; reflexivity|].
  apply bind_done in H as (n1 & H1 & H). destruct (hook_answers c t ev n1 A H1) as (t1 & -> & E). cbn [bind]. rewrite <- E in H. exact (IH _ _ H).
Qed.
End Full.

(** Samples and mid prices of a history. *)
Lemma replay_samples c l : forall t t', replay (full_tracker c) t l = Done t' -> tk_samples t' = rev (sums l) ++ tk_samples t.
Proof.
  induction l as [|ev l IH]; intros t t' H; cbn [replay] in H; [injection H as <-; reflexivity|].
  apply bind_done in H as (t1 & H1 & H). rewrite (IH _ _ H), sums_cons, rev_app_distr, <- app_assoc. f_equal.
  destruct ev as [m|b mid|o| |fu q|o| |sd p q]; cbn [full_tracker] in H1; try (injection H1 as <-; reflexivity).
  unfold log_trade in H1. apply bind_done in H1 as (? & _ & H1). apply bind_done in H1 as (? & _ & H1). destruct sd; injection H1 as <-; reflexivity.
Qed.
Lemma mids_app a b : mids (a ++ b) = mids a ++ mids b.
Proof. unfold mids. apply flat_map_app. Qed.
Lemma mids_fills ru l : mids (flat_map (fill_told ru) l) = [].
Proof. induction l as [|o l IH]; [reflexivity|]. cbn [flat_map]. rewrite mids_app, IH. unfold fill_told. destruct (touched ru o); reflexivity. Qed.
Lemma mids_told e o r : mids (told e o r) =
  match o with OpUpdate ru => let q := quote_after ru (qx_ms e) in [Z.quot (fst q + snd q) 2] | _ => [] end.
Proof.
  destruct o as [ru|sd q uid|sd p q uid|b|i sd p q uid|ru]; cbn [told].
  - rewrite mids_cons, mids_app. change (mids [EvMarket (moved ru (qx_ms e))]) with [Z.quot (fst (quote_after ru (qx_ms e)) + snd (quote_after ru (qx_ms e))) 2].
    cbn [app]. f_equal. replace (mids (if sample_due _ _ then _ else [])) with (@nil Z) by (destruct (sample_due _ _); reflexivity). cbn [app].
    destruct (is_ok r); [apply mids_fills | reflexivity].
  - destruct (0 <? q); [|reflexivity]. unfold market_told. destruct (is_ok r); reflexivity.
  - destruct (_ && _); reflexivity.
  - destruct (is_ok r); reflexivity.
  - destruct (_ && _); [|reflexivity]. destruct (find _ _); [|reflexivity]. cbv zeta. destruct (0 <? _); reflexivity.
  - apply mids_fills.
Qed.
Lemma mids_run c : 0 <= c_max c <= 10000 -> forall ops e e' outs, reachable c e -> run c e ops = Done (e', outs) ->
  mids (told_all c (erase e) ops) = marks_from (ms_bid (ex_ms e), ms_ask (ex_ms e)) ops.
Proof.
  intros Hm. induction ops as [|o ops IH]; intros e e' outs R H; [reflexivity|].
  cbn [run] in H. apply bind_done in H as [[e1 r] [H1 H]]. apply bind_done in H as [[e2 rs] [H2 H]]. injection H as -> <-.
  assert (Q : q_step c (erase e) o = Done (erase e1, r)).
  { pose proof (q_step_rel c e o) as Q. rewrite H1 in Q. destruct (q_step c (erase e) o) as [[e3 r3]|]; cbn in Q; [|contradiction].
    destruct Q as [A B]. cbn in A, B. rewrite A, B. reflexivity. }
  cbn [told_all]. rewrite Q, mids_app, mids_told, (IH _ _ _ (reach_step _ _ _ _ _ R H1) H2).
  pose proof (step_market _ _ _ _ _ Hm (reachable_inv _ _ Hm R) H1) as M. change (qx_ms (erase e)) with (ex_ms e).
  destruct o as [ru|sd q uid|sd p q uid|b|i sd p q uid|ru]; try (rewrite M; reflexivity).
  destruct M as (M1 & M2 & _). rewrite M1, M2. cbn [marks_from app]. unfold quote_after. cbv zeta. destruct (quote_of ru) as [[? ?]|]; reflexivity.
Qed.
