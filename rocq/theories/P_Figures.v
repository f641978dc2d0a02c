(** Property C79: the risk figures of the full account tracker, whatever its statistics crates compute. *)
From Coq Require Import QArith Qabs.
From Verif Require Import Base Types Accounting MarketUpdate Tracker Stats Exchange Untracked Tracked Spec SpecConfig SpecMarket SpecTrack SpecStats SpecQuiet SpecTracked
  Float FloatStats Figures SpecFigures Scenario ScenarioPanic ScenarioFigures FiguresProof FiguresFloat FiguresCor.
Open Scope Z_scope.

(** Whatever the tracker is told: its numbers are those of the tracker of Tracker.v.  The market's drawdown is fed every mid price,
    the user's statistics the sums of the sampled balances, their returns and, for the downside, just the losing returns.  The market's
    quantiles are fed the returns between the mid prices at the samples. *)
Theorem C79_fed : forall F c start l t0 t,
  full_new F start = Done t0 -> replay (full_hook F c) t0 l = Done t ->
  (exists n0, tracker_new start = Done n0 /\ replay (full_tracker c) n0 l = Done (ft_num F t)) /\
  fed (dd_update F) (dd_new F) (map (f32_of F) (mids l)) = Done (ft_market_dd F t) /\
  user_statistics F t (sums l) /\
  (fx_quantiles F = true -> exists rs, returns_of F (ln_new F) (map (f32_of F) (sampled_mids l)) = Done rs /\ fed (qg_add F) (qg_new F) rs = Done (ft_market_q F t)).
Proof. exact fed_from_new. Qed.
Print Assumptions C79_fed.

(** Over a history: the trading and the numbers are those without the statistics.  The market's drawdown is that of the mid prices after
    the updates, the user's statistics follow from the sampled balances. *)
Theorem C79_history : forall F c ops t e outs,
  0 <= c_max c <= 10000 -> plays F c ops t e outs ->
  exists e', history c ops e' outs /\ e = erase e' /\ ft_num F t = ex_trk e' /\
    fed (dd_update F) (dd_new F) (map (f32_of F) (marks ops)) = Done (ft_market_dd F t) /\
    user_statistics F t (rev (tk_samples (ex_trk e'))).
Proof. exact history_figures. Qed.
Print Assumptions C79_history.

(** If the crates do not panic, every history goes through with them. *)
Theorem C79_same_trading : forall F c ops e outs,
  answers F -> history c ops e outs -> exists t, plays F c ops t (erase e) outs /\ ft_num F t = ex_trk e.
Proof. exact figures_answer. Qed.
Print Assumptions C79_same_trading.

(** A history that panics without them panics with them. *)
Theorem C79_same_panics : forall F c ops e0 t0 p,
  init c = Done e0 -> full_new F (c_start c) = Done t0 -> run c e0 ops = Panic p ->
  exists p', t_run (full_hook F c) c (erase e0) ops t0 = Panic p'.
Proof. exact figures_panic. Qed.
Print Assumptions C79_same_panics.

(** The drawdowns shown are those of the sampled balances and of the mid prices, zero if there is none. *)
Theorem C79_drawdowns : forall F c ops t e outs,
  0 <= c_max c <= 10000 -> plays F c ops t e outs ->
  exists e' s m, history c ops e' outs /\
    fed (dd_update F) (dd_new F) (map (f32_of F) (rev (tk_samples (ex_trk e')))) = Done s /\ shows F s (drawdown_user_balances F t) /\
    fed (dd_update F) (dd_new F) (map (f32_of F) (marks ops)) = Done m /\ shows F m (drawdown_market F t).
Proof. exact drawdowns. Qed.
Print Assumptions C79_drawdowns.

(** The Sharpe ratio: missing just without a deviation or with deviation zero; otherwise the mean over the deviation. *)
Theorem C79_sharpe : forall F t,
  (sharpe F t = None <-> wf_last F (ft_stats F t) = None \/ exists s, wf_last F (ft_stats F t) = Some s /\ is_zero s) /\
  (forall m d, wf_mean F (ft_stats F t) = Fin m -> wf_last F (ft_stats F t) = Some (Fin d) -> (0 < d)%Q ->
     exists r, sharpe F t = Some r /\ quotient m d r).
Proof. exact sharpe_figure. Qed.
Print Assumptions C79_sharpe.

(** The Sortino ratio: the mean of all returns over the deviation of the losses. *)
Theorem C79_sortino : forall F t,
  (sortino F t = None <-> wf_last F (ft_neg_stats F t) = None \/ exists s, wf_last F (ft_neg_stats F t) = Some s /\ is_zero s) /\
  (forall m d, wf_mean F (ft_stats F t) = Fin m -> wf_last F (ft_neg_stats F t) = Some (Fin d) -> (0 < d)%Q ->
     exists r, sortino F t = Some r /\ quotient m d r).
Proof. exact sortino_figure. Qed.
Print Assumptions C79_sortino.

(** It is missing as long as there was no loss. *)
Theorem C79_no_loss : forall F t xs rs,
  user_statistics F t xs -> returns_of F (ln_new F) (map (f32_of F) xs) = Done rs -> (forall r, In r rs -> loses r = false) ->
  wf_last F (wf_new F) = None -> sortino F t = None.
Proof. exact no_loss. Qed.
Print Assumptions C79_no_loss.

(** The Kelly leverage: its assertion, and with it printing the tracker, fails just if the statistic gives no variance; with variance
    zero it is zero; otherwise it is the mean over the variance. *)
Theorem C79_kelly : forall F c t,
  let v := wf_variance F (ft_stats F t) in
  (kelly_leverage F t = None <-> bad_variance v) /\ (display F c t = None <-> bad_variance v) /\
  (is_zero v -> kelly_leverage F t = Some (Fin 0)) /\
  (forall m d, wf_mean F (ft_stats F t) = Fin m -> v = Fin d -> (0 < d)%Q -> exists r, kelly_leverage F t = Some r /\ quotient m d r).
Proof. exact kelly_figure. Qed.
Print Assumptions C79_kelly.

(** Otherwise printing panics just as the integer statistics do, and prints the figures. *)
Theorem C79_display : forall F c t k,
  kelly_leverage F t = Some k ->
  (forall p, display F c t = Some (Panic p) <-> display_numbers c (ft_num F t) = Panic p) /\
  (forall a b k' l x y, display F c t = Some (Done (a, b, k', l, x, y)) <->
     a = sharpe F t /\ b = sortino F t /\ k' = k /\ display_numbers c (ft_num F t) = Done l /\ x = fill_ratio (ft_num F t) /\ y = cancellation_ratio (ft_num F t)).
Proof. exact display_is. Qed.
Print Assumptions C79_display.

(** With the same risk a higher mean return is not rated lower. *)
Theorem C79_higher_mean : forall F t t' m m' d r r',
  wf_mean F (ft_stats F t) = Fin m -> wf_mean F (ft_stats F t') = Fin m' -> (m <= m')%Q -> (0 < d)%Q ->
  (wf_last F (ft_stats F t) = Some (Fin d) -> wf_last F (ft_stats F t') = Some (Fin d) -> sharpe F t = Some (Fin r) -> sharpe F t' = Some (Fin r') -> (r <= r')%Q) /\
  (wf_last F (ft_neg_stats F t) = Some (Fin d) -> wf_last F (ft_neg_stats F t') = Some (Fin d) -> sortino F t = Some (Fin r) -> sortino F t' = Some (Fin r') -> (r <= r')%Q) /\
  (wf_variance F (ft_stats F t) = Fin d -> wf_variance F (ft_stats F t') = Fin d -> kelly_leverage F t = Some (Fin r) -> kelly_leverage F t' = Some (Fin r') -> (r <= r')%Q).
Proof. exact higher_mean. Qed.
Print Assumptions C79_higher_mean.

(** The share of bought volume as [f32]: between 0 and 1, and off the true share by the last place of a decimal, the error of the
    conversion to [f64] and the rounding to [f32] at most. *)
Theorem C79_volume_ratio : forall F c e t y eps r,
  valid_config c -> reachable c e -> ft_num F t = ex_trk e ->
  buy_volume_ratio c (ex_trk e) = Done (Some r) -> fx_f64 F r = Fin y -> (0 <= y <= 1)%Q -> (Qabs (y - inject_Z r / inject_Z (c_scale c)) <= eps)%Q ->
  exists x, buy_volume_ratio_f32 F c t = Done (Some (Fin x)) /\ (0 <= x <= 1)%Q /\
    (Qabs (x - inject_Z (tk_buy_volume (ex_trk e)) / inject_Z (turnover (ex_trk e))) <= 1 / inject_Z (c_scale c) + eps + 2 ^ (-23))%Q.
Proof. exact volume_ratio. Qed.
Print Assumptions C79_volume_ratio.

(** The discriminant ratio is missing just if a quantile or a mean is. *)
Theorem C79_d_ratio_none : forall F t q,
  d_ratio F t q = None <->
  qg_quantile F (ft_market_q F t) q = None \/ qg_quantile F (ft_user_q F t) q = None \/ qg_mean F (ft_market_q F t) = None \/ qg_mean F (ft_user_q F t) = None.
Proof. exact d_ratio_none. Qed.
Print Assumptions C79_d_ratio_none.

(** If it is above 1, the return per risk of the user is above that of buying and holding. *)
Theorem C79_d_ratio_outperforms : forall um uq mm mq,
  before (Fin 1) (d_ratio_of um uq mm mq) -> before (fdiv b64 mm (fabs mq)) (fdiv b64 um (fabs uq)).
Proof. exact d_ratio_outperforms. Qed.
Print Assumptions C79_d_ratio_outperforms.

(** It is not so for the return itself: above 1 the user may have lost more than buying and holding. *)
Theorem C79_d_ratio_refuted : exists F c ops t e outs x u m,
  plays F c ops t e outs /\
  d_ratio F t zero = Some x /\ qg_mean F (ft_user_q F t) = Some u /\ qg_mean F (ft_market_q F t) = Some m /\ before (Fin 1) x /\ before u m.
Proof. exact d_ratio_fooled. Qed.
Print Assumptions C79_d_ratio_refuted.

(** Nor is the converse true: a small lead is rounded away. *)
Theorem C79_d_ratio_blind_refuted : exists um uq mm mq,
  before (fdiv b64 mm (fabs mq)) (fdiv b64 um (fabs uq)) /\ exists x, d_ratio_of um uq mm mq = Fin x /\ (x == 1)%Q.
Proof. exact d_ratio_blind. Qed.
Print Assumptions C79_d_ratio_blind_refuted.

(** Simple statistics and four trips, two with a profit: the sampled balances, the returns and the losses among them in millionths,
    then the figures.  With a statistic that is no variance the tracker cannot be printed. *)
Example C79_case :
  answers simple /\
  after simple (demo_cfg Linear true) trips_ops (fun t =>
    (rev (tk_samples (ft_num simple t)), map shown (ft_stats simple t), map shown (ft_neg_stats simple t))) =
  Some ([10000000; 10188674; 10077288; 10125926; 10074552],
        [Some 18867; Some (-10933); Some 4826; Some (-5074)], [Some (-10933); Some (-5074)]) /\
  after simple (demo_cfg Linear true) trips_ops (fun t =>
    (option_map shown (sharpe simple t), option_map shown (sortino simple t), option_map shown (kelly_leverage simple t),
     (shown (drawdown_user_balances simple t), shown (drawdown_market simple t), option_map shown (d_ratio simple t zero)))) =
  Some (Some (Some 170257), Some (Some 656113), Some (Some 15081980), (Some 11200, Some 82987, Some (Some 429179))) /\
  after broken (demo_cfg Linear true) trips_ops (fun t => (display broken (demo_cfg Linear true) t, option_map shown (sharpe broken t))) = Some (None, Some (Some 170257)).
Proof. refine (conj simple_answers _). vm_compute. repeat split. Qed.

(** The history of [C79_d_ratio_refuted]: a mean return of -3.6 % to the market's -1.0 %, and a discriminant ratio of 1.6; 51.01 % of the
    volume was bought.  After a single profit there is a return and no Sortino ratio. *)
Example C79_unlucky :
  after simple (demo_cfg Linear true) unlucky_ops (fun t =>
    (option_map shown (qg_mean simple (ft_user_q simple t)), option_map shown (qg_mean simple (ft_market_q simple t)), option_map shown (d_ratio simple t zero),
     match buy_volume_ratio_f32 simple (demo_cfg Linear true) t with Done (Some x) => shown x | _ => None end)) =
  Some (Some (Some (-36218)), Some (Some (-10001)), Some (Some 1600182), Some 510100) /\
  after simple (demo_cfg Linear true) (trip 1 100 101 120 121 ++ [quote 120 121 11000000000]) (fun t => (map shown (ft_stats simple t), sortino simple t)) =
  Some ([Some 18867], None).
Proof. vm_compute. split; reflexivity. Qed.
