(** What the statistics of the account tracker are fed, and what its risk figures should be. *)
From Coq Require Import QArith Qabs.
From Verif Require Import Base Types MarketUpdate Tracker Exchange Untracked Tracked Float FloatStats Figures.
Open Scope Z_scope.

(** A statistic fed with numbers in order. *)
Fixpoint fed {S : Type} (feed : S -> float -> outcome S) (s : S) (l : list float) : outcome S :=
  match l with
  | [] => Done s
  | x :: r => s1 <- feed s x ;; fed feed s1 r
  end.
(** The returns between numbers: what [LnReturn] answers after each, if anything. *)
Fixpoint returns_of (F : features) (s : ln_state F) (l : list float) : outcome (list float) :=
  match l with
  | [] => Done []
  | x :: r =>
      s1 <- ln_update F s x ;;
      rest <- returns_of F s1 r ;;
      Done (match ln_last F s1 with Some v => v :: rest | None => rest end)
  end.
(** Losses. *)
Definition loses (a : float) : bool := match a with Inf s => s | Fin x => Qnum x <? 0 | NaN => false end.

(** The numbers in what a tracker is told: mid prices, sums of the balances, mid prices at the time of these. *)
Definition mids (l : list event) : list Z :=
  flat_map (fun ev => match ev with EvMarket m => [Z.quot (ms_bid m + ms_ask m) 2] | _ => [] end) l.
Definition sums (l : list event) : list Z :=
  flat_map (fun ev => match ev with EvBalances b _ => [ub_wallet b + ub_pm b + ub_om b] | _ => [] end) l.
Definition sampled_mids (l : list event) : list Z :=
  flat_map (fun ev => match ev with EvBalances _ m => [m] | _ => [] end) l.

(** The statistics that follow from balances [xs]: those of the balances, of their returns and of the losses among these. *)
Definition user_statistics (F : features) (t : full F) (xs : list Z) : Prop :=
  let l := map (f32_of F) xs in
  fed (dd_update F) (dd_new F) l = Done (ft_dd F t) /\ fed (ln_update F) (ln_new F) l = Done (ft_ln F t) /\
  exists rs, returns_of F (ln_new F) l = Done rs /\
    fed (wf_update F) (wf_new F) rs = Done (ft_stats F t) /\ fed (wf_update F) (wf_new F) (filter loses rs) = Done (ft_neg_stats F t) /\
    (fx_quantiles F = true -> fed (qg_add F) (qg_new F) rs = Done (ft_user_q F t)).

(** A figure shows what a drawdown statistic answers, zero if nothing. *)
Definition shows (F : features) (s : dd_state F) (x : float) : Prop := x = match dd_last F s with Some y => y | None => Fin 0 end.

(** The crates never panic. *)
Definition answers (F : features) : Prop :=
  (forall s x, exists s', ln_update F s x = Done s') /\ (forall s x, exists s', dd_update F s x = Done s') /\
  (forall s x, exists s', wf_update F s x = Done s') /\ (forall s x, exists s', qg_add F s x = Done s').

Open Scope Q_scope.
Definition is_zero (a : float) : Prop := exists z, a = Fin z /\ z == 0.
(** A number, not [NaN], of this sign. *)
Definition nonneg (a : float) : Prop := a = Inf false \/ exists x, a = Fin x /\ 0 <= x.
Definition nonpos (a : float) : Prop := a = Inf true \/ exists x, a = Fin x /\ x <= 0.
(** [r] is the quotient of [m] and [d], up to the rounding of [f32] or too large for it. *)
Definition quotient (m d : Q) (r : float) : Prop :=
  (0 <= m -> nonneg r) /\ (m <= 0 -> nonpos r) /\
  forall x, r = Fin x -> Qabs (x - m / d) <= Qabs (m / d) * 2 ^ (-24) + 2 ^ (-150).
(** No variance: not a number, or negative. *)
Definition bad_variance (v : float) : Prop := v = NaN \/ v = Inf true \/ exists x, v = Fin x /\ x < 0.
(** The order of floating point numbers without [NaN]. *)
Definition before (a b : float) : Prop :=
  match a, b with
  | Inf true, Inf false | Inf true, Fin _ | Fin _, Inf false => True
  | Fin x, Fin y => x < y
  | _, _ => False
  end.
Open Scope Z_scope.
(** The calls [ops] on a fresh exchange with the full tracker. *)
Definition plays (F : features) (c : config) (ops : list op) (t : full F) (e : quiet) (outs : list (result error out)) : Prop :=
  exists t0 e0, full_new F (c_start c) = Done t0 /\ q_init c = Done e0 /\ t_run (full_hook F c) c e0 ops t0 = Done (t, (e, outs)).
