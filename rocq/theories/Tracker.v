(** Account tracker and the sampling trigger. *)
From Verif Require Import Base Types Currency MarketUpdate.

(** src/account_tracker/full_track.rs:21-86: the integer part of [FullAccountTracker].
    The f32 statistics are in Figures.v; [tk_samples] is a history of the balance sums they are fed
    with (most recent first), it does not exist in the code. *)
Record tracker := {
  tk_start : Z;
  tk_sub_limit : Z;        (* num_submitted_limit_orders *)
  tk_cancelled : Z;        (* num_cancelled_limit_orders *)
  tk_fill_events : Z;      (* num_filled_limit_order_events *)
  tk_fully_filled : Z;     (* num_fully_filled_limit_orders *)
  tk_sub_market : Z;       (* num_submitted_market_orders *)
  tk_filled_market : Z;    (* num_filled_market_orders *)
  tk_buy_volume : Z;
  tk_sell_volume : Z;
  tk_price_first : Z;
  tk_price_last : Z;
  tk_ts_first : Z;
  tk_ts_last : Z;
  tk_last_balance_sum : Z;
  tk_samples : list Z
}.

(** src/account_tracker/full_track.rs:97-142, [new]. *)
Definition tracker_new (start : Z) : outcome tracker :=
  _ <- assert (0 <? start) PTrackerStart ;;
  Done {| tk_start := start; tk_sub_limit := 0; tk_cancelled := 0; tk_fill_events := 0;
          tk_fully_filled := 0; tk_sub_market := 0; tk_filled_market := 0;
          tk_buy_volume := 0; tk_sell_volume := 0; tk_price_first := 0; tk_price_last := 0;
          tk_ts_first := 0; tk_ts_last := 0; tk_last_balance_sum := 0; tk_samples := [] |}.

(** src/account_tracker/full_track.rs:280-293, [update]. *)
Definition tracker_update (t : tracker) (m : market_state) : tracker :=
  {| tk_start := tk_start t; tk_sub_limit := tk_sub_limit t; tk_cancelled := tk_cancelled t;
     tk_fill_events := tk_fill_events t; tk_fully_filled := tk_fully_filled t;
     tk_sub_market := tk_sub_market t; tk_filled_market := tk_filled_market t;
     tk_buy_volume := tk_buy_volume t; tk_sell_volume := tk_sell_volume t;
     tk_price_first := if tk_price_first t =? 0 then mid_price m else tk_price_first t;
     tk_price_last := mid_price m;
     tk_ts_first := if tk_ts_first t =? 0 then ms_ts m else tk_ts_first t;
     tk_ts_last := ms_ts m;
     tk_last_balance_sum := tk_last_balance_sum t; tk_samples := tk_samples t |}.

(** src/account_tracker/full_track.rs:295-324, [sample_user_balances] (integer part). *)
Definition tracker_sample (t : tracker) (balance_sum : Z) : tracker :=
  {| tk_start := tk_start t; tk_sub_limit := tk_sub_limit t; tk_cancelled := tk_cancelled t;
     tk_fill_events := tk_fill_events t; tk_fully_filled := tk_fully_filled t;
     tk_sub_market := tk_sub_market t; tk_filled_market := tk_filled_market t;
     tk_buy_volume := tk_buy_volume t; tk_sell_volume := tk_sell_volume t;
     tk_price_first := tk_price_first t; tk_price_last := tk_price_last t;
     tk_ts_first := tk_ts_first t; tk_ts_last := tk_ts_last t;
     tk_last_balance_sum := balance_sum; tk_samples := balance_sum :: tk_samples t |}.

(** Adding to the counters and volumes; the counter functions below are instances. *)
Definition tracker_add (t : tracker) (sub_limit cancelled fill_events fully sub_market filled_market
                                      buy sell : Z) : tracker :=
  {| tk_start := tk_start t; tk_sub_limit := tk_sub_limit t + sub_limit;
     tk_cancelled := tk_cancelled t + cancelled;
     tk_fill_events := tk_fill_events t + fill_events;
     tk_fully_filled := tk_fully_filled t + fully;
     tk_sub_market := tk_sub_market t + sub_market;
     tk_filled_market := tk_filled_market t + filled_market;
     tk_buy_volume := tk_buy_volume t + buy; tk_sell_volume := tk_sell_volume t + sell;
     tk_price_first := tk_price_first t; tk_price_last := tk_price_last t;
     tk_ts_first := tk_ts_first t; tk_ts_last := tk_ts_last t;
     tk_last_balance_sum := tk_last_balance_sum t; tk_samples := tk_samples t |}.

(** src/account_tracker/full_track.rs:327-332 *)
Definition log_limit_order_submission (t : tracker) := tracker_add t 1 0 0 0 0 0 0 0.
(** src/account_tracker/full_track.rs:335-337 *)
Definition log_limit_order_cancellation (t : tracker) := tracker_add t 0 1 0 0 0 0 0 0.
(** src/account_tracker/full_track.rs:340-349 *)
Definition log_limit_order_fill (t : tracker) (fully : bool) :=
  tracker_add t 0 0 1 (if fully then 1 else 0) 0 0 0 0.
(** src/account_tracker/full_track.rs:352-354 *)
Definition log_market_order_fill (t : tracker) := tracker_add t 0 0 0 0 0 1 0 0.
(** src/account_tracker/full_track.rs:372-377 *)
Definition log_market_order_submission (t : tracker) := tracker_add t 0 0 0 0 1 0 0 0.
(** src/account_tracker/full_track.rs:356-369, [log_trade]. *)
Definition log_trade (c : config) (t : tracker) (sd : side) (price qty : Z) : outcome tracker :=
  _ <- assert (0 <? qty) PLogTradeQty ;;
  value <- convert_from (c_kind c) (c_scale c) qty price ;;
  Done (match sd with
        | Buy => tracker_add t 0 0 0 0 0 0 value 0
        | Sell => tracker_add t 0 0 0 0 0 0 0 value
        end).

(** Getters of the tracker. *)
(** src/account_tracker/full_track.rs:145-149, [buy_and_hold_return]. *)
Definition buy_and_hold_return (c : config) (t : tracker) : outcome Z :=
  qty <- convert_paired (c_kind c) (c_scale c) (tk_start t) (tk_price_first t) ;;
  pnl (c_kind c) (c_scale c) (tk_price_first t) (tk_price_last t) qty.
(** src/account_tracker/full_track.rs:152-154, [sell_and_hold_return]. *)
Definition sell_and_hold_return (c : config) (t : tracker) : outcome Z :=
  v <- buy_and_hold_return c t ;; Done (- v).
(** src/account_tracker/full_track.rs:157-164, [num_trading_days] (the final [as u32] cast is
    the identity for fewer than 2^32 days). *)
Definition num_trading_days (t : tracker) : outcome Z :=
  _ <- assert (tk_ts_first t <=? tk_ts_last t) PTradingDays ;;
  Done (Z.quot (tk_ts_last t - tk_ts_first t) 86400000000000).
(** src/account_tracker/full_track.rs:179-181, [turnover]. *)
Definition turnover (t : tracker) : Z := tk_buy_volume t + tk_sell_volume t.
(** src/account_tracker/full_track.rs:195-197, [rpnl]. *)
Definition rpnl (t : tracker) : Z := tk_last_balance_sum t - tk_start t.

(** src/sample_returns_trigger.rs:5-9 *)
Record trigger := { tg_interval : Z; tg_last : Z; tg_init : bool }.

(** src/sample_returns_trigger.rs:12-18, [new]. *)
Definition trigger_new (interval : Z) : trigger :=
  {| tg_interval := interval; tg_last := 0; tg_init := true |}.

(** src/sample_returns_trigger.rs:20-33, [should_trigger]. *)
Definition should_trigger (t : trigger) (ts : Z) : trigger * bool :=
  if tg_init t then
    ({| tg_interval := tg_interval t; tg_last := ts; tg_init := false |}, true)
  else if tg_last t + tg_interval t <=? ts then
    ({| tg_interval := tg_interval t; tg_last := tg_last t + tg_interval t; tg_init := false |}, true)
  else (t, false).
