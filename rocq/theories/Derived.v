(** The derived statistics, the loading of trades and the currency helpers on machine integers: Tracker.v, Stats.v, Data.v and
    Helpers.v with every operation checked, as Fixed.v is Exchange.v. *)
From Verif Require Import Base Types Filters Accounting Currency Position OrderBook OrderMargin
  Risk MarketUpdate Tracker Stats Helpers Data Exchange Width Fixed.

(** src/account_tracker/full_track.rs:179-181, [turnover]. *)
Definition w_turnover (w : Z) (t : tracker) : checked Z := cadd w (tk_buy_volume t) (tk_sell_volume t).
(** src/account_tracker/full_track.rs:195-197, [rpnl]. *)
Definition w_rpnl (w : Z) (t : tracker) : checked Z := csub w (tk_last_balance_sum t) (tk_start t).

(** src/account_tracker/full_track.rs:200-210, [buy_volume_ratio], up to the conversion to [f32]. *)
Definition w_buy_volume_ratio (w : Z) (c : config) (t : tracker) : checked (option Z) :=
  _ <~ Fine (assert (0 <=? tk_buy_volume t) PVolumeRatio) ;;
  _ <~ Fine (assert (0 <=? tk_sell_volume t) PVolumeRatio) ;;
  total <~ cadd w (tk_buy_volume t) (tk_sell_volume t) ;;
  if total =? 0 then ret None
  else r <~ cdiv w (c_scale c) (tk_buy_volume t) total ;; ret (Some r).

(** src/account_tracker/full_track.rs:145-154, [buy_and_hold_return] and [sell_and_hold_return]. *)
Definition w_convert_paired (w : Z) (k : kind) (s units price : Z) : checked Z :=
  match k with Linear => cdiv w s units price | Inverse => cmul w s units price end.
Definition w_buy_and_hold_return (w : Z) (c : config) (t : tracker) : checked Z :=
  qty <~ w_convert_paired w (c_kind c) (c_scale c) (tk_start t) (tk_price_first t) ;;
  w_pnl w (c_kind c) (c_scale c) (tk_price_first t) (tk_price_last t) qty.
Definition w_sell_and_hold_return (w : Z) (c : config) (t : tracker) : checked Z :=
  v <~ w_buy_and_hold_return w c t ;; cneg w v.

(** src/account_tracker/full_track.rs:157-164, [num_trading_days], with the final cast to [u32]. *)
Definition as_u32 (z : Z) : Z := z mod 2 ^ 32.
Definition w_num_trading_days (t : tracker) : checked Z :=
  _ <~ Fine (assert (tk_ts_first t <=? tk_ts_last t) PTradingDays) ;;
  d <~ chk 64 (tk_ts_last t - tk_ts_first t) ;;
  ret (as_u32 (Z.quot d 86400000000000)).

(** src/account_tracker/full_track.rs:380-417, [Display], as [display_numbers]. *)
Definition w_display_numbers (w : Z) (c : config) (t : tracker) : checked (list Z) :=
  r <~ w_rpnl w t ;;
  turn <~ w_turnover w t ;;
  bh <~ w_buy_and_hold_return w c t ;;
  days <~ w_num_trading_days t ;;
  ret [r; tk_buy_volume t; tk_sell_volume t; turn; bh; days].

(** src/load_trades_from_csv.rs:32-56, the body of the loop, for a row whose numbers are parsed. *)
Definition w_load_row (r : csv_row) : checked trade :=
  _ <~ Fine (assert (negb (cr_size r =? 0)) PCsvSize) ;;
  ns <~ chk 64 (cr_ms r * 1000000) ;;
  ret {| tr_price := cr_price r; tr_qty := cr_size r; tr_side := if cr_size r <? 0 then Sell else Buy; tr_ts := ns |}.
Fixpoint w_load_rows (rows : list csv_row) : checked (list trade) :=
  match rows with
  | [] => ret []
  | r :: rest => t <~ w_load_row r ;; ts <~ w_load_rows rest ;; ret (t :: ts)
  end.
(** src/trade_aggregation.rs:22-27, [TakerTrade::size]. *)
Definition w_taker_size (w : Z) (t : trade) : checked Z :=
  match tr_side t with Buy => ret (tr_qty t) | Sell => cneg w (tr_qty t) end.

(** src/types/smol_currency/quote_currency.rs:129-135 and base_currency.rs:112-117, [price_paid_for_qty]. *)
Definition w_price_paid_for_qty (w : Z) (k : kind) (s cost qty : Z) : checked Z :=
  match k with
  | Linear => if qty =? 0 then ret 0 else cdiv w s cost qty
  | Inverse => if cost =? 0 then ret 0 else cdiv w s qty cost
  end.
(** src/types/smol_currency/quote_currency.rs:86-90 and base_currency.rs:68-72, [quantize_round_to_zero]. *)
Definition w_quantize_round_to_zero (w v quantum : Z) : checked Z :=
  r <~ crem w v quantum ;; csub w v r.
(** src/types/smol_currency/quote_currency.rs:186-188 and base_currency.rs:168-170, [abs]. *)
Definition w_currency_abs (w v : Z) : checked Z := cabs w v.
