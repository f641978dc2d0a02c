(** Derived statistics of the account tracker. *)
From Verif Require Import Base Types Currency Tracker.

(** src/account_tracker/full_track.rs:200-210, [buy_volume_ratio]; the decimal before its conversion to [f32]. *)
Definition buy_volume_ratio (c : config) (t : tracker) : outcome (option Z) :=
  _ <- assert (0 <=? tk_buy_volume t) PVolumeRatio ;;
  _ <- assert (0 <=? tk_sell_volume t) PVolumeRatio ;;
  let total := tk_buy_volume t + tk_sell_volume t in
  if total =? 0 then Done None
  else r <- ddiv (c_scale c) (tk_buy_volume t) total ;; Done (Some r).

(** src/account_tracker/full_track.rs:167-176, [limit_order_fill_ratio] and [limit_order_cancellation_ratio]: numerator
    and denominator of the [f32] division. *)
Definition limit_order_fill_ratio (t : tracker) : Z * Z := (tk_fully_filled t, tk_sub_limit t).
Definition limit_order_cancellation_ratio (t : tracker) : Z * Z := (tk_cancelled t, tk_sub_limit t).

(** src/account_tracker/full_track.rs:380-417, [Display]: the integer statistics it evaluates, in order.
    [sharpe], [sortino] and [kelly_leverage] are in Figures.v. *)
Definition display_numbers (c : config) (t : tracker) : outcome (list Z) :=
  bh <- buy_and_hold_return c t ;;
  days <- num_trading_days t ;;
  Done [rpnl t; tk_buy_volume t; tk_sell_volume t; turnover t; bh; days].
