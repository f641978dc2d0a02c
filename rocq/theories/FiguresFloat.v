(** Risk figures in floating point numbers. *)
From Coq Require Import QArith Qabs Qpower Lqa.
From Verif Require Import Base Types Currency Tracker Stats Float FloatStats SpecDouble FloatBase SpecSample FloatStatsProof FloatStatsRatio Figures SpecFigures.
Open Scope Q_scope.

Lemma flt_before a b : flt a b = true <-> before a b.
Proof.
  destruct a as [|[]|x], b as [|[]|y]; cbn; try (split; [discriminate | contradiction]); try (split; [exact (fun _ => I) | reflexivity]).
  rewrite Bool.negb_true_iff. split; intros H.
  - apply Qnot_le_lt. intros L. apply Qle_bool_iff in L. congruence.
  - destruct (Qle_bool y x) eqn:E; [|reflexivity]. apply Qle_bool_iff in E. lra.
Qed.
Lemma feq_zero a : feq a zero = true <-> is_zero a.
Proof.
  unfold is_zero. destruct a as [|[]|x]; cbn; try (split; [discriminate | intros (z & E & _); discriminate]).
  split; intros H; [exists x; split; [reflexivity | apply Qeq_bool_eq; exact H]|]. destruct H as (z & E & Hz). injection E as ->. apply Qeq_eq_bool. exact Hz.
Qed.

Lemma rnd_nonneg f x : sensible f -> 0 <= x -> nonneg (round_to f x).
Proof.
  intros S H. pose proof (rnd_sign f S x H) as A. destruct (round_to f x) as [|s|y] eqn:E; cbn in A.
  - unfold round_to in E. destruct (Qeq_bool x 0); [discriminate|]. cbv zeta in E. destruct (Qle_bool _ _) in E; discriminate.
  - subst. left. reflexivity.
  - right. exists y. split; [reflexivity | exact A].
Qed.
Lemma rnd_nonpos f x : sensible f -> x <= 0 -> nonpos (round_to f x).
Proof.
  intros S H. destruct (round_to f x) as [|s|y] eqn:E.
  - unfold round_to in E. destruct (Qeq_bool x 0); [discriminate|]. cbv zeta in E. destruct (Qle_bool _ _) in E; discriminate.
  - left. unfold round_to in E. destruct (Qeq_bool x 0) eqn:Z; [discriminate|]. cbv zeta in E. destruct (Qle_bool _ _) in E; [|discriminate]. injection E as <-. f_equal.
    unfold negative. destruct (Qle_bool 0 x) eqn:L; [|reflexivity]. apply Qle_bool_iff in L. assert (x == 0) by lra. apply Qeq_eq_bool in H0. congruence.
  - right. exists y. split; [reflexivity|]. apply (rnd_le f S x y 0 E (zero_representable f S) H).
Qed.

Lemma div_quotient m d : 0 < d -> quotient m d (fdiv b32 (Fin m) (Fin d)).
Proof.
  intros D. cbn [fdiv]. assert (Z : Qeq_bool d 0 = false) by (destruct (Qeq_bool d 0) eqn:E; [apply Qeq_bool_eq in E; lra | reflexivity]). rewrite Z.
  assert (I : 0 < / d) by (apply Qinv_lt_0_compat; exact D).
  split; [|split].
  - intros H. apply (rnd_nonneg b32 _ sensible32). unfold Qdiv. nra.
  - intros H. apply (rnd_nonpos b32 _ sensible32). unfold Qdiv. nra.
  - intros x E. exact (rnd_error b32 sensible32 _ _ E).
Qed.
Lemma div_monotone m m' d r r' : 0 < d -> m <= m' -> fdiv b32 (Fin m) (Fin d) = Fin r -> fdiv b32 (Fin m') (Fin d) = Fin r' -> r <= r'.
Proof.
  intros D L. cbn [fdiv]. assert (Z : Qeq_bool d 0 = false) by (destruct (Qeq_bool d 0) eqn:E; [apply Qeq_bool_eq in E; lra | reflexivity]). rewrite Z.
  apply (rnd_monotone b32 sensible32). assert (I : 0 < / d) by (apply Qinv_lt_0_compat; exact D). unfold Qdiv. nra.
Qed.

Section Full.
Context (F : features).
Lemma ratio_none o m : (match o with None => None | Some s => if feq s zero then None else Some (fdiv b32 m s) end) = None <->
  o = None \/ exists s, o = Some s /\ is_zero s.
Proof.
  destruct o as [s|]; [|split; [left; reflexivity | reflexivity]]. destruct (feq s zero) eqn:E.
  - split; [intros _; right; exists s; split; [reflexivity | apply feq_zero; exact E] | reflexivity].
  - split; [discriminate|]. intros [H|(s' & H & Z)]; [discriminate|]. injection H as <-. apply feq_zero in Z. congruence.
Qed.
Lemma ratio_some m d : 0 < d -> exists r, (if feq (Fin d) zero then None else Some (fdiv b32 (Fin m) (Fin d))) = Some r /\ quotient m d r.
Proof.
  intros D. assert (E : feq (Fin d) zero = false) by (cbn; destruct (Qeq_bool d 0) eqn:E; [apply Qeq_bool_eq in E; lra | reflexivity]).
  rewrite E. eexists. split; [reflexivity | apply div_quotient; exact D].
Qed.

Lemma sharpe_figure t :
  (sharpe F t = None <-> wf_last F (ft_stats F t) = None \/ exists s, wf_last F (ft_stats F t) = Some s /\ is_zero s) /\
  (forall m d, wf_mean F (ft_stats F t) = Fin m -> wf_last F (ft_stats F t) = Some (Fin d) -> 0 < d ->
     exists r, sharpe F t = Some r /\ quotient m d r).
Proof.
  split; [apply ratio_none|]. intros m d M L D. unfold sharpe. rewrite L, M. apply ratio_some. exact D.
Qed.
Lemma sortino_figure t :
  (sortino F t = None <-> wf_last F (ft_neg_stats F t) = None \/ exists s, wf_last F (ft_neg_stats F t) = Some s /\ is_zero s) /\
  (forall m d, wf_mean F (ft_stats F t) = Fin m -> wf_last F (ft_neg_stats F t) = Some (Fin d) -> 0 < d ->
     exists r, sortino F t = Some r /\ quotient m d r).
Proof.
  split; [apply ratio_none|]. intros m d M L D. unfold sortino. rewrite L, M. apply ratio_some. exact D.
Qed.
Lemma fge_zero v : fge v zero = false <-> bad_variance v.
Proof.
  unfold fge, bad_variance. destruct v as [|[]|x]; cbn.
  - split; [left; reflexivity | reflexivity].
  - split; [right; left; reflexivity | reflexivity].
  - split; [discriminate | intros [H|[H|(x & H & _)]]; discriminate].
  - rewrite Bool.orb_false_iff, Bool.negb_false_iff. split.
    + intros [A B]. right; right. exists x. split; [reflexivity|]. apply Qle_bool_iff in A. assert (N : ~ x == 0) by (intros N; apply Qeq_eq_bool in N; congruence). lra.
    + intros [H|[H|(y & H & L)]]; try discriminate. injection H as <-. split; [apply Qle_bool_iff; lra|]. destruct (Qeq_bool x 0) eqn:E; [apply Qeq_bool_eq in E; lra | reflexivity].
Qed.
Lemma kelly_figure c t :
  let v := wf_variance F (ft_stats F t) in
  (kelly_leverage F t = None <-> bad_variance v) /\ (display F c t = None <-> bad_variance v) /\
  (is_zero v -> kelly_leverage F t = Some (Fin 0)) /\
  (forall m d, wf_mean F (ft_stats F t) = Fin m -> v = Fin d -> 0 < d -> exists r, kelly_leverage F t = Some r /\ quotient m d r).
Proof.
  cbv zeta. set (v := wf_variance F (ft_stats F t)).
  assert (A : kelly_leverage F t = None <-> bad_variance v).
  { rewrite <- fge_zero. unfold kelly_leverage. fold v. destruct (fge v zero); split; congruence. }
  split; [exact A|]. split; [|split].
  - rewrite <- A. unfold display. destruct (kelly_leverage F t); split; congruence.
  - intros Z. unfold kelly_leverage. fold v. apply feq_zero in Z. unfold fge. rewrite Z, Bool.orb_true_r. reflexivity.
  - intros m d M V D. unfold kelly_leverage. fold v. rewrite M, V.
    assert (E : feq (Fin d) zero = false) by (cbn; destruct (Qeq_bool d 0) eqn:E; [apply Qeq_bool_eq in E; lra | reflexivity]).
    assert (G : fge (Fin d) zero = true) by (destruct (fge (Fin d) zero) eqn:G; [reflexivity|]; apply fge_zero in G as [G|[G|(x & G & L)]]; try discriminate; injection G as <-; lra).
    rewrite G, E. eexists. split; [reflexivity | apply div_quotient; exact D].
Qed.
End Full.

(** ** The discriminant ratio *)
Definition not_above_zero (a : float) : Prop := match a with NaN | Inf true => True | Fin x => x <= 0 | Inf false => False end.
Lemma div_not_above a b : not_above_zero a -> not_above_zero (fdiv b64 a (fabs b)).
Proof.
  destruct a as [|[]|x], b as [|s|y]; cbn [fabs fdiv not_above_zero]; intros H; try exact I; try contradiction; try apply Qle_refl.
  - cbn. rewrite not_negative by apply Qabs_nonneg. exact I.
  - destruct (Qeq_bool (Qabs y) 0) eqn:E.
    + destruct (Qeq_bool x 0) eqn:Z; [exact I|]. unfold negative. destruct (Qle_bool 0 x) eqn:L; [|exact I]. apply Qle_bool_iff in L. assert (X : x == 0) by lra. apply Qeq_eq_bool in X. congruence.
    + assert (P : 0 < Qabs y). { pose proof (Qabs_nonneg y) as N. destruct (Qlt_le_dec 0 (Qabs y)) as [G|G]; [exact G|]. assert (Z : Qabs y == 0) by lra. apply Qeq_eq_bool in Z. congruence. }
      assert (Q : 0 < / Qabs y) by (apply Qinv_lt_0_compat; exact P).
      destruct (rnd_nonpos b64 (x / Qabs y) sensible64) as [->|(z & -> & L)]; [unfold Qdiv; nra | exact I | exact L].
Qed.
Lemma sub_not_above a b : ~ before b a -> not_above_zero (fsub b64 a b).
Proof.
  destruct a as [|[]|x], b as [|[]|y]; cbn [fsub fopp fadd before not_above_zero negb eqb]; intros H; try exact I; try (exfalso; exact (H I)).
  destruct (rnd_nonpos b64 (x + - y) sensible64) as [->|(z & -> & L)]; [lra | exact I | exact L].
Qed.
Lemma one64 : representable_in b64 1.
Proof. apply (small_int b64 sensible64 1). reflexivity. Qed.
Lemma add_not_above a : not_above_zero a -> ~ before (Fin 1) (fadd b64 (Fin 1) a).
Proof.
  destruct a as [|[]|x]; cbn [fadd not_above_zero]; intros H; [exact (fun B => B) | exact (fun B => B) | contradiction|].
  destruct (round_to b64 (1 + x)) as [|s|z] eqn:E; [exact (fun B => B)| |].
  - destruct s; [exact (fun B => B)|]. exfalso.
    assert (N : forall s, round_to b64 (1 + x) = Inf s -> s = false -> False).
    { intros s Es ->. destruct (Qlt_le_dec (1 + x) 0) as [L|L].
      - destruct (rnd_nonpos b64 (1 + x) sensible64) as [R|(z & R & _)]; [lra | congruence | congruence].
      - destruct (rnd_finite b64 sensible64 (1 + x)) as [y Y]; [|congruence]. apply Qabs_Qle_condition.
        assert (P : 1 <= 2 ^ (f_emax b64 - 2)) by (vm_compute; discriminate). lra. }
    exact (N false E eq_refl).
  - cbn. pose proof (rnd_le b64 sensible64 _ _ 1 E one64). lra.
Qed.
Lemma d_ratio_outperforms um uq mm mq : before (Fin 1) (d_ratio_of um uq mm mq) ->
  before (fdiv b64 mm (fabs mq)) (fdiv b64 um (fabs uq)).
Proof.
  unfold d_ratio_of. cbv zeta. set (a := fdiv b64 um (fabs uq)). set (b := fdiv b64 mm (fabs mq)). intros H.
  destruct (flt b a) eqn:E; [apply flt_before; exact E|]. exfalso. revert H. apply add_not_above, div_not_above, sub_not_above.
  intros B. apply flt_before in B. congruence.
Qed.
Lemma d_ratio_none F t q : d_ratio F t q = None <->
  qg_quantile F (ft_market_q F t) q = None \/ qg_quantile F (ft_user_q F t) q = None \/ qg_mean F (ft_market_q F t) = None \/ qg_mean F (ft_user_q F t) = None.
Proof.
  unfold d_ratio. destruct (qg_quantile F (ft_market_q F t) q); [|tauto]. destruct (qg_quantile F (ft_user_q F t) q); [|tauto].
  destruct (qg_mean F (ft_market_q F t)); [|tauto]. destruct (qg_mean F (ft_user_q F t)); [|tauto]. split; [discriminate|]. intros [H|[H|[H|H]]]; discriminate.
Qed.
