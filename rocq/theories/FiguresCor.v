(** The account tracker with its statistics over histories. *)
From Coq Require Import QArith Qabs Lqa.
From Verif Require Import ProofBase StepLemmas OpLemmas FillLemmas Inv Spec SpecConfig SpecMarket SpecTrack SpecStats Stats OrderProof HealthProof LiqProof StatsProof SoundProof
  Untracked SpecQuiet UntrackedProof Tracked SpecTracked TrackedProof TrackedFull Float FloatStats SpecDouble FloatBase FloatStatsProof FloatStatsRatio
  Figures SpecFigures FiguresProof FiguresFloat.
Open Scope Z_scope.

Section Full.
Context (F : features).

Lemma full_new_is start t : full_new F start = Done t -> tracker_new start = Done (ft_num F t) /\
  t = {| ft_num := ft_num F t; ft_ln := ln_new F; ft_dd := dd_new F; ft_market_dd := dd_new F; ft_stats := wf_new F; ft_neg_stats := wf_new F;
         ft_user_q := qg_new F; ft_market_ln := ln_new F; ft_market_q := qg_new F |}.
Proof. unfold full_new. intros H. apply bind_done in H as (n & H1 & H). injection H as <-. split; [exact H1 | reflexivity]. Qed.

Lemma fed_from_new c start l t0 t : full_new F start = Done t0 -> replay (full_hook F c) t0 l = Done t ->
  (exists n0, tracker_new start = Done n0 /\ replay (full_tracker c) n0 l = Done (ft_num F t)) /\
  fed (dd_update F) (dd_new F) (map (f32_of F) (mids l)) = Done (ft_market_dd F t) /\
  user_statistics F t (sums l) /\
  (fx_quantiles F = true -> exists rs, returns_of F (ln_new F) (map (f32_of F) (sampled_mids l)) = Done rs /\ fed (qg_add F) (qg_new F) rs = Done (ft_market_q F t)).
Proof.
  intros H0 H. destruct (full_new_is _ _ H0) as [N E]. destruct (replay_fed F _ _ _ _ H) as (A1 & A2 & A3 & A4). rewrite E in A2, A3, A4. cbn in A2.
  split; [eexists; split; [exact N | exact A1]|]. split; [exact A2|]. split; [exact A3|]. intros Q. exact (proj2 (A4 Q)).
Qed.

Lemma start_pos c : forall t, tracker_new (c_start c) = Done t -> 0 < c_start c.
Proof. intros t H. unfold tracker_new in H. destruct (Z.ltb_spec 0 (c_start c)); [assumption | discriminate]. Qed.
Lemma plays_history c ops t e outs : plays F c ops t e outs ->
  exists e0 e', init c = Done e0 /\ run c e0 ops = Done (e', outs) /\ e = erase e' /\ ft_num F t = ex_trk e' /\
    exists t0, full_new F (c_start c) = Done t0 /\ replay (full_hook F c) t0 (told_all c (erase e0) ops) = Done t.
Proof.
  intros (t0 & q0 & H0 & Hq & H). apply any_run in H as [H1 H2]. destruct (full_new_is _ _ H0) as [N E]. pose proof (start_pos _ _ N) as P.
  rewrite (untracked_init c P) in Hq. destruct (init c) as [e0|] eqn:I; [|discriminate]. injection Hq as <-.
  rewrite untracked_run in H1. destruct (run c e0 ops) as [[e' o]|] eqn:R; [|discriminate]. cbn in H1. injection H1 as <- <-.
  exists e0, e'. refine (conj eq_refl (conj R (conj eq_refl (conj _ _)))); [|exists t0; split; assumption].
  destruct (replay_fed F _ _ _ _ H2) as (A1 & _). pose proof (full_replay _ _ _ _ _ R) as A.
  assert (X : ex_trk e0 = ft_num F t0). { unfold init in I. rewrite N in I. cbn [bind] in I. unfold exchange_new in I. apply bind_done in I as [acc [_ I]]. injection I as <-. reflexivity. }
  rewrite X in A. congruence.
Qed.
Lemma history_figures c ops t e outs : 0 <= c_max c <= 10000 -> plays F c ops t e outs ->
  exists e', history c ops e' outs /\ e = erase e' /\ ft_num F t = ex_trk e' /\
    fed (dd_update F) (dd_new F) (map (f32_of F) (marks ops)) = Done (ft_market_dd F t) /\
    user_statistics F t (rev (tk_samples (ex_trk e'))).
Proof.
  intros Hm H. destruct (plays_history _ _ _ _ _ H) as (e0 & e' & I & R & E & N & t0 & T0 & T).
  exists e'. refine (conj _ (conj E (conj N _))); [exists e0; split; assumption|].
  destruct (fed_from_new _ _ _ _ _ T0 T) as (_ & A & B & _).
  destruct (init_trk _ _ I) as (_ & _ & _ & _ & _ & _ & S & M).
  rewrite (mids_run c Hm _ _ _ _ (init_reach _ _ I) R), M in A. split; [exact A|].
  rewrite (replay_samples _ _ _ _ (full_replay _ _ _ _ _ R)), S, app_nil_r, rev_involutive. exact B.
Qed.
Lemma figures_answer c ops e outs : answers F -> history c ops e outs ->
  exists t, plays F c ops t (erase e) outs /\ ft_num F t = ex_trk e.
Proof.
  intros A (e0 & I & R).
  assert (N : tracker_new (c_start c) = Done (ex_trk e0)).
  { unfold init in I. apply bind_done in I as [n [N I]]. unfold exchange_new in I. apply bind_done in I as [acc [_ I]]. injection I as <-. exact N. }
  assert (T0 : exists t0, full_new F (c_start c) = Done t0 /\ ft_num F t0 = ex_trk e0) by (unfold full_new; rewrite N; eexists; split; reflexivity).
  destruct T0 as (t0 & T0 & X). pose proof (full_replay _ _ _ _ _ R) as Y. rewrite <- X in Y.
  destruct (replay_answers F c _ A _ _ Y) as (t & T & Z). exists t. split; [|exact Z].
  exists t0, (erase e0). refine (conj T0 (conj _ _)); [rewrite (untracked_init c (start_pos _ _ N)), I; reflexivity|].
  apply any_run. split; [rewrite untracked_run, R; reflexivity | exact T].
Qed.
Lemma figures_panic c ops e0 t0 p : init c = Done e0 -> full_new F (c_start c) = Done t0 -> run c e0 ops = Panic p ->
  exists p', t_run (full_hook F c) c (erase e0) ops t0 = Panic p'.
Proof.
  intros I T0 R. destruct (full_new_is _ _ T0) as [N _].
  assert (X : ex_trk e0 = ft_num F t0). { unfold init in I. rewrite N in I. cbn [bind] in I. unfold exchange_new in I. apply bind_done in I as [acc [_ I]]. injection I as <-. reflexivity. }
  destruct (t_run (full_hook F c) c (erase e0) ops t0) as [[t [e outs]]|p'] eqn:E; [|eauto]. exfalso. apply any_run in E as [E1 E2].
  destruct (replay_fed F _ _ _ _ E2) as (A & _). rewrite <- X in A.
  pose proof (full_run c e0 ops) as G. rewrite R in G. rewrite (told_run _ _ _ _ _ E1), A in G. discriminate.
Qed.

(** Without a losing return there is no Sortino ratio. *)
Lemma no_loss t xs rs : user_statistics F t xs -> returns_of F (ln_new F) (map (f32_of F) xs) = Done rs -> (forall r, In r rs -> loses r = false) ->
  wf_last F (wf_new F) = None -> sortino F t = None.
Proof.
  intros (_ & _ & rs' & A & _ & B & _) R N W. rewrite R in A. injection A as <-.
  assert (E : filter loses rs = []). { clear - N. induction rs as [|r rs IH]; [reflexivity|]. cbn. rewrite (N r (or_introl eq_refl)). apply IH. intros x Hx. apply N. right. exact Hx. }
  rewrite E in B. cbn in B. unfold sortino. injection B as B. rewrite <- B, W. reflexivity.
Qed.
End Full.

(** The drawdowns shown. *)
Lemma drawdowns (F : features) c ops t e outs : 0 <= c_max c <= 10000 -> plays F c ops t e outs ->
  exists e' s m, history c ops e' outs /\
    fed (dd_update F) (dd_new F) (map (f32_of F) (rev (tk_samples (ex_trk e')))) = Done s /\ shows F s (drawdown_user_balances F t) /\
    fed (dd_update F) (dd_new F) (map (f32_of F) (marks ops)) = Done m /\ shows F m (drawdown_market F t).
Proof.
  intros Hm H. destruct (history_figures F _ _ _ _ _ Hm H) as (e' & H1 & _ & _ & M & U & _). exists e', (ft_dd F t), (ft_market_dd F t).
  unfold drawdown_user_balances, drawdown_market, shows. refine (conj H1 (conj U (conj _ (conj M _)))); destruct (dd_last F _); reflexivity.
Qed.
(** What is printed. *)
Lemma display_is (F : features) c (t : full F) k : kelly_leverage F t = Some k ->
  (forall p, display F c t = Some (Panic p) <-> display_numbers c (ft_num F t) = Panic p) /\
  (forall a b k' l x y, display F c t = Some (Done (a, b, k', l, x, y)) <->
     a = sharpe F t /\ b = sortino F t /\ k' = k /\ display_numbers c (ft_num F t) = Done l /\ x = fill_ratio (ft_num F t) /\ y = cancellation_ratio (ft_num F t)).
Proof.
  intros K. unfold display. rewrite K. destruct (display_numbers c (ft_num F t)) as [l0|p0]; cbn [bind]; split; intros; split.
  - discriminate.
  - discriminate.
  - intros H. injection H as <- <- <- <- <- <-. repeat split.
  - intros (-> & -> & -> & H & -> & ->). injection H as ->. reflexivity.
  - intros H. injection H as <-. reflexivity.
  - intros H. injection H as <-. reflexivity.
  - discriminate.
  - intros (_ & _ & _ & H & _). discriminate.
Qed.

(** The ratio of the volume bought. *)
Open Scope Q_scope.
Lemma volume_ratio (F : features) c e (t : full F) y eps r : valid_config c -> reachable c e -> ft_num F t = ex_trk e ->
  buy_volume_ratio c (ex_trk e) = Done (Some r) -> fx_f64 F r = Fin y -> 0 <= y <= 1 -> Qabs (y - inject_Z r / inject_Z (c_scale c)) <= eps ->
  exists x, buy_volume_ratio_f32 F c t = Done (Some (Fin x)) /\ 0 <= x <= 1 /\
    Qabs (x - inject_Z (tk_buy_volume (ex_trk e)) / inject_Z (turnover (ex_trk e))) <= 1 / inject_Z (c_scale c) + eps + 2 ^ (-23).
Proof.
  intros V R N B Y [Y0 Y1] E. destruct (ratio_law c e V R) as ([L0 L1] & Z & L). assert (S : (0 < c_scale c)%Z) by apply V.
  assert (T : turnover (ex_trk e) <> 0%Z) by (intros T; rewrite (Z T) in B; discriminate).
  destruct (L T) as (r' & B' & R1 & R2). rewrite B in B'. injection B' as <-.
  unfold buy_volume_ratio_f32. rewrite N, B. cbn [bind]. unfold f32_of. rewrite Y. cbn [as_f32].
  destruct (rnd_finite b32 sensible32 y) as [x X].
  { rewrite Qabs_pos by exact Y0. assert (P : 1 <= 2 ^ (f_emax b32 - 2)) by (vm_compute; discriminate). lra. }
  rewrite X. exists x. split; [reflexivity|]. split; [split; [exact (rnd_ge b32 sensible32 _ _ 0 X (zero_representable b32 sensible32) Y0) | exact (rnd_le b32 sensible32 _ _ 1 X one32 Y1)]|].
  pose proof (rnd_error b32 sensible32 _ _ X) as D. rewrite (Qabs_pos y Y0) in D.
  assert (D2 : Qabs (x - y) <= 2 ^ (-23)).
  { eapply Qle_trans; [exact D|]. assert (A1 : relative b32 + absolute b32 <= 2 ^ (-23)) by (vm_compute; discriminate).
    assert (A2 : 0 <= relative b32) by (vm_compute; discriminate). nra. }
  set (b := tk_buy_volume (ex_trk e)) in *. set (s := c_scale c) in *. set (tot := turnover (ex_trk e)) in *. assert (Tp : (0 < tot)%Z) by lia.
  assert (Sq : 0 < inject_Z s) by (change 0 with (inject_Z 0); rewrite <- Zlt_Qlt; exact S).
  assert (Tq : 0 < inject_Z tot) by (change 0 with (inject_Z 0); rewrite <- Zlt_Qlt; exact Tp).
  destruct R2 as [Ra Rb]. rewrite Zle_Qle, !inject_Z_mult in Ra. rewrite Zlt_Qlt, !inject_Z_mult, inject_Z_plus in Rb. change (inject_Z 1) with 1 in Rb.
  assert (K : Qabs (inject_Z r / inject_Z s - inject_Z b / inject_Z tot) <= 1 / inject_Z s).
  { assert (K1 : inject_Z r / inject_Z s <= inject_Z b / inject_Z tot).
    { apply Qle_shift_div_l; [exact Tq|]. setoid_replace (inject_Z r / inject_Z s * inject_Z tot) with ((inject_Z r * inject_Z tot) / inject_Z s) by (field; lra).
      apply Qle_shift_div_r; assumption. }
    assert (K2 : inject_Z b / inject_Z tot <= (inject_Z r + 1) / inject_Z s).
    { apply Qle_shift_div_l; [exact Sq|]. setoid_replace (inject_Z b / inject_Z tot * inject_Z s) with ((inject_Z b * inject_Z s) / inject_Z tot) by (field; lra).
      apply Qle_shift_div_r; [exact Tq | lra]. }
    assert (K3 : (inject_Z r + 1) / inject_Z s == inject_Z r / inject_Z s + 1 / inject_Z s) by (field; lra). apply Qabs_Qle_condition. lra. }
  apply Qabs_Qle_condition in D2 as [? ?]. apply Qabs_Qle_condition in E as [? ?]. apply Qabs_Qle_condition in K as [? ?]. apply Qabs_Qle_condition. lra.
Qed.

(** A higher mean return is not rated lower. *)
Lemma higher_mean (F : features) (t t' : full F) m m' d r r' : wf_mean F (ft_stats F t) = Fin m -> wf_mean F (ft_stats F t') = Fin m' -> m <= m' -> 0 < d ->
  (wf_last F (ft_stats F t) = Some (Fin d) -> wf_last F (ft_stats F t') = Some (Fin d) -> sharpe F t = Some (Fin r) -> sharpe F t' = Some (Fin r') -> r <= r') /\
  (wf_last F (ft_neg_stats F t) = Some (Fin d) -> wf_last F (ft_neg_stats F t') = Some (Fin d) -> sortino F t = Some (Fin r) -> sortino F t' = Some (Fin r') -> r <= r') /\
  (wf_variance F (ft_stats F t) = Fin d -> wf_variance F (ft_stats F t') = Fin d -> kelly_leverage F t = Some (Fin r) -> kelly_leverage F t' = Some (Fin r') -> r <= r').
Proof.
  intros M M' L D. assert (E : feq (Fin d) zero = false) by (cbn; destruct (Qeq_bool d 0) eqn:E; [apply Qeq_bool_eq in E; lra | reflexivity]).
  unfold sharpe, sortino, kelly_leverage. rewrite M, M'. split; [|split]; intros A B; rewrite A, B, E.
  - intros C C'. injection C as C. injection C' as C'. exact (div_monotone _ _ _ _ _ D L C C').
  - intros C C'. injection C as C. injection C' as C'. exact (div_monotone _ _ _ _ _ D L C C').
  - destruct (fge (Fin d) zero); [|discriminate]. intros C C'. injection C as C. injection C' as C'. exact (div_monotone _ _ _ _ _ D L C C').
Qed.
Open Scope Z_scope.

(** ** Examples *)
From Verif Require Import Scenario ScenarioPanic ScenarioFigures.
Lemma after_plays {A} F c ops (f : full F -> A) a : after F c ops f = Some a -> exists t e outs, plays F c ops t e outs /\ f t = a.
Proof.
  unfold after. destruct (q_init c) as [e0|] eqn:E; [|discriminate]. destruct (full_new F (c_start c)) as [t0|] eqn:T; [|discriminate].
  destruct (t_run (full_hook F c) c e0 ops t0) as [[t [e outs]]|] eqn:R; [|discriminate]. intros H. injection H as H.
  exists t, e, outs. split; [exists t0, e0; repeat split; assumption | exact H].
Qed.
Lemma simple_answers : answers simple.
Proof. refine (conj _ (conj _ (conj _ _))); intros; eexists; reflexivity. Qed.
Definition fooled (F : features) (t : full F) : bool :=
  match d_ratio F t zero, qg_mean F (ft_user_q F t), qg_mean F (ft_market_q F t) with
  | Some x, Some u, Some m => flt (Fin 1) x && flt u m
  | _, _, _ => false
  end.
Lemma fooled_by F c ops : after F c ops (fooled F) = Some true -> exists t e outs x u m, plays F c ops t e outs /\
  d_ratio F t zero = Some x /\ qg_mean F (ft_user_q F t) = Some u /\ qg_mean F (ft_market_q F t) = Some m /\ before (Fin 1) x /\ before u m.
Proof.
  intros H. destruct (after_plays _ _ _ _ _ H) as (t & e & outs & P & B). unfold fooled in B.
  destruct (d_ratio F t zero) as [x|] eqn:X; [|discriminate B]. destruct (qg_mean F (ft_user_q F t)) as [u|] eqn:U; [|discriminate B].
  destruct (qg_mean F (ft_market_q F t)) as [m|] eqn:M; [|discriminate B]. apply andb_prop in B as [B1 B2].
  exists t, e, outs, x, u, m. refine (conj P (conj X (conj U (conj M (conj _ _))))); apply flt_before; assumption.
Qed.
Lemma d_ratio_fooled : exists F c ops t e outs x u m, plays F c ops t e outs /\
  d_ratio F t zero = Some x /\ qg_mean F (ft_user_q F t) = Some u /\ qg_mean F (ft_market_q F t) = Some m /\ before (Fin 1) x /\ before u m.
Proof. exists simple, (demo_cfg Linear true), unlucky_ops. apply fooled_by. vm_compute. reflexivity. Qed.
Lemma d_ratio_blind : exists um uq mm mq, before (fdiv b64 mm (fabs mq)) (fdiv b64 um (fabs uq)) /\ exists x, d_ratio_of um uq mm mq = Fin x /\ (x == 1)%Q.
Proof.
  exists (Fin (- (9007199254740991 # 9007199254740992))%Q), (Fin 1), (Fin (-1)), (Fin 1). split; [refine (proj1 (flt_before _ _) _); vm_compute; reflexivity|].
  eexists. split; [vm_compute; reflexivity | reflexivity].
Qed.
