(** The part of the full account tracker that is computed in floating point numbers: what it feeds to the statistics of the crates
    [sliding_features] and [quantogram], and the risk figures it makes of their answers.  The two crates are not modelled.  They are a
    parameter, so that all that is proved holds whatever they compute. *)
From Coq Require Import QArith.
From Verif Require Import Base Types Accounting Currency MarketUpdate Tracker Stats Exchange Untracked Tracked Float FloatStats.
Open Scope Z_scope.

(** The statistics used by src/account_tracker/full_track.rs:1-20 and the conversion [Decimal::to_f64] of const_decimal.  Feeding a
    number may panic; asking does not. *)
Record features := {
  fx_f64 : Z -> float;                                        (* to_f64 *)
  fx_quantiles : bool;                                        (* the crate feature "quantiles" is on *)
  ln_state : Type; ln_new : ln_state;                         (* LnReturn<f32, Echo<f32>> *)
  ln_update : ln_state -> float -> outcome ln_state; ln_last : ln_state -> option float;
  dd_state : Type; dd_new : dd_state;                         (* Drawdown<f32, Echo<f32>> *)
  dd_update : dd_state -> float -> outcome dd_state; dd_last : dd_state -> option float;
  wf_state : Type; wf_new : wf_state;                         (* WelfordRolling<f32, Echo<f32>> *)
  wf_update : wf_state -> float -> outcome wf_state; wf_last : wf_state -> option float;
  wf_mean : wf_state -> float; wf_variance : wf_state -> float;
  qg_state : Type; qg_new : qg_state;                         (* quantogram::Quantogram *)
  qg_add : qg_state -> float -> outcome qg_state; qg_quantile : qg_state -> float -> option float;
  qg_mean : qg_state -> option float
}.

(** Comparisons of floating point numbers; with [NaN] they are false. *)
Definition flt (a b : float) : bool :=
  match a, b with
  | Inf true, Inf false | Inf true, Fin _ | Fin _, Inf false => true
  | Fin x, Fin y => negb (Qle_bool y x)
  | _, _ => false
  end.
Definition feq (a b : float) : bool :=
  match a, b with Inf s, Inf t => eqb s t | Fin x, Fin y => Qeq_bool x y | _, _ => false end.
Definition fge (a b : float) : bool := flt b a || feq a b.
Definition zero : float := Fin 0.
(** [as f32]; [as f64] of an [f32] changes nothing. *)
Definition as_f32 (a : float) : float := match a with Fin x => round_to b32 x | _ => a end.
Definition fabs (a : float) : float := match a with NaN => NaN | Inf _ => Inf false | Fin x => Fin (Qabs.Qabs x) end.

Section Full.
Context (F : features).

(** src/account_tracker/full_track.rs:21-86, [FullAccountTracker]; [ft_num] is the tracker of Tracker.v. *)
Record full := {
  ft_num : tracker;
  ft_ln : ln_state F;        (* user_balances_ln_return *)
  ft_dd : dd_state F;        (* drawdown_user_balances *)
  ft_market_dd : dd_state F; (* drawdown_market *)
  ft_stats : wf_state F;     (* user_balances_ln_return_stats *)
  ft_neg_stats : wf_state F; (* user_balances_neg_ln_return_stats *)
  ft_user_q : qg_state F;    (* quantogram_user_balances_ln_returns *)
  ft_market_ln : ln_state F; (* sampled_market_ln_return *)
  ft_market_q : qg_state F   (* quantogram_market_ln_returns *)
}.

(** src/account_tracker/full_track.rs:97-142, [new]. *)
Definition full_new (start : Z) : outcome full :=
  t <- tracker_new start ;;
  Done {| ft_num := t; ft_ln := ln_new F; ft_dd := dd_new F; ft_market_dd := dd_new F; ft_stats := wf_new F; ft_neg_stats := wf_new F;
          ft_user_q := qg_new F; ft_market_ln := ln_new F; ft_market_q := qg_new F |}.

(** A decimal as [f32]: [Into::<f64>::into(..) as f32]. *)
Definition f32_of (z : Z) : float := as_f32 (fx_f64 F z).

(** src/account_tracker/full_track.rs:280-293, [update]. *)
Definition full_update (t : full) (m : market_state) : outcome full :=
  dd <- dd_update F (ft_market_dd t) (f32_of (mid_price m)) ;;
  Done {| ft_num := tracker_update (ft_num t) m; ft_ln := ft_ln t; ft_dd := ft_dd t; ft_market_dd := dd; ft_stats := ft_stats t;
          ft_neg_stats := ft_neg_stats t; ft_user_q := ft_user_q t; ft_market_ln := ft_market_ln t; ft_market_q := ft_market_q t |}.

(** src/account_tracker/full_track.rs:295-324, [sample_user_balances]. *)
Definition full_sample (t : full) (b : user_balances) (mid : Z) : outcome full :=
  let sum := balances_sum b in
  let x := f32_of sum in
  dd <- dd_update F (ft_dd t) x ;;
  ln <- ln_update F (ft_ln t) x ;;
  '(st, neg, uq) <- match ln_last F ln with
                    | None => Done (ft_stats t, ft_neg_stats t, ft_user_q t)
                    | Some r =>
                        st <- wf_update F (ft_stats t) r ;;
                        neg <- (if flt r zero then wf_update F (ft_neg_stats t) r else Done (ft_neg_stats t)) ;;
                        uq <- (if fx_quantiles F then qg_add F (ft_user_q t) r else Done (ft_user_q t)) ;;
                        Done (st, neg, uq)
                    end ;;
  '(mln, mq) <- (if fx_quantiles F then
                   mln <- ln_update F (ft_market_ln t) (f32_of mid) ;;
                   mq <- match ln_last F mln with
                         | None => Done (ft_market_q t)
                         | Some r => qg_add F (ft_market_q t) r
                         end ;;
                   Done (mln, mq)
                 else Done (ft_market_ln t, ft_market_q t)) ;;
  Done {| ft_num := tracker_sample (ft_num t) sum; ft_ln := ln; ft_dd := dd; ft_market_dd := ft_market_dd t; ft_stats := st;
          ft_neg_stats := neg; ft_user_q := uq; ft_market_ln := mln; ft_market_q := mq |}.

(** src/account_tracker/full_track.rs:272-378: the calls of the exchange.  The others only count, as in Tracker.v. *)
Definition full_hook (c : config) (t : full) (ev : event) : outcome full :=
  match ev with
  | EvMarket m => full_update t m
  | EvBalances b mid => full_sample t b mid
  | _ =>
      n <- full_tracker c (ft_num t) ev ;;
      Done {| ft_num := n; ft_ln := ft_ln t; ft_dd := ft_dd t; ft_market_dd := ft_market_dd t; ft_stats := ft_stats t;
              ft_neg_stats := ft_neg_stats t; ft_user_q := ft_user_q t; ft_market_ln := ft_market_ln t; ft_market_q := ft_market_q t |}
  end.

(** src/account_tracker/full_track.rs:184-192, [drawdown_user_balances] and [drawdown_market]. *)
Definition drawdown_user_balances (t : full) : float := match dd_last F (ft_dd t) with Some x => x | None => zero end.
Definition drawdown_market (t : full) : float := match dd_last F (ft_market_dd t) with Some x => x | None => zero end.

(** src/account_tracker/full_track.rs:200-210, [buy_volume_ratio]. *)
Definition buy_volume_ratio_f32 (c : config) (t : full) : outcome (option float) :=
  r <- buy_volume_ratio c (ft_num t) ;;
  Done (match r with Some v => Some (f32_of v) | None => None end).

(** src/account_tracker/full_track.rs:214-223, [sharpe]. *)
Definition sharpe (t : full) : option float :=
  match wf_last F (ft_stats t) with
  | None => None
  | Some std_dev => if feq std_dev zero then None else Some (fdiv b32 (wf_mean F (ft_stats t)) std_dev)
  end.
(** src/account_tracker/full_track.rs:227-237, [kelly_leverage]; [None] if its assertion fails. *)
Definition kelly_leverage (t : full) : option float :=
  let variance := wf_variance F (ft_stats t) in
  if fge variance zero then
    Some (if feq variance zero then zero else fdiv b32 (wf_mean F (ft_stats t)) variance)
  else None.
(** src/account_tracker/full_track.rs:241-250, [sortino]. *)
Definition sortino (t : full) : option float :=
  match wf_last F (ft_neg_stats t) with
  | None => None
  | Some neg_std_dev => if feq neg_std_dev zero then None else Some (fdiv b32 (wf_mean F (ft_stats t)) neg_std_dev)
  end.
(** src/account_tracker/full_track.rs:257-270, [d_ratio]. *)
Definition d_ratio_of (user_mean user_quantile market_mean market_quantile : float) : float :=
  let rtv_algo := fdiv b64 user_mean (fabs user_quantile) in
  let rtv_bnh := fdiv b64 market_mean (fabs market_quantile) in
  fadd b64 (Fin 1) (fdiv b64 (fsub b64 rtv_algo rtv_bnh) (fabs rtv_bnh)).
Definition d_ratio (t : full) (quantile : float) : option float :=
  match qg_quantile F (ft_market_q t) quantile with None => None | Some market_quantile =>
  match qg_quantile F (ft_user_q t) quantile with None => None | Some user_quantile =>
  match qg_mean F (ft_market_q t) with None => None | Some market_mean =>
  match qg_mean F (ft_user_q t) with None => None | Some user_mean =>
  Some (d_ratio_of user_mean user_quantile market_mean market_quantile)
  end end end end.

(** src/account_tracker/full_track.rs:380-417, [Display]: the figures in the order in which they are computed.  [None] if the assertion
    of [kelly_leverage] fails; it comes before all that can panic in [display_numbers]. *)
Definition display (c : config) (t : full) : option (outcome (option float * option float * float * list Z * float * float)) :=
  match kelly_leverage t with
  | None => None
  | Some k =>
      Some (l <- display_numbers c (ft_num t) ;;
            Done (sharpe t, sortino t, k, l, fill_ratio (ft_num t), cancellation_ratio (ft_num t)))
  end.
End Full.
