(** The numbers computed by the derived statistics, the loading of trades and the currency helpers, as in SpecNeeds.v. *)
From Verif Require Import Base Types Currency MarketUpdate Tracker Data Width SpecFixed SpecFits SpecNeeds.

Definition n_turnover (t : tracker) : list number := [Amt (tk_buy_volume t + tk_sell_volume t)].
Definition n_rpnl (t : tracker) : list number := [Amt (tk_last_balance_sum t - tk_start t)].
Definition n_volume_ratio (s : Z) (t : tracker) : list number :=
  guard (0 <=? tk_buy_volume t) ;;
  guard (0 <=? tk_sell_volume t) ;;
  let total := tk_buy_volume t + tk_sell_volume t in
  need Amt total ;;
  if total =? 0 then [] else n_div s (tk_buy_volume t) total.

(** What the starting capital buys at the first price, and its profit at the last price. *)
Definition n_bought (k : kind) (s : Z) (t : tracker) : list number :=
  match k with Linear => n_div s (tk_start t) (tk_price_first t) | Inverse => [Amt (dmul s (tk_start t) (tk_price_first t))] end.
Definition n_hold (k : kind) (s : Z) (t : tracker) : list number :=
  q <-- convert_paired k s (tk_start t) (tk_price_first t) with n_bought k s t ;;
  n_pnl k s (tk_price_first t) (tk_price_last t) q.
Definition n_short_hold (c : config) (t : tracker) : list number :=
  v <-- buy_and_hold_return c t with n_hold (c_kind c) (c_scale c) t ;;
  [Amt (- v)].
Definition n_days (t : tracker) : list number :=
  guard (tk_ts_first t <=? tk_ts_last t) ;;
  [Tim (tk_ts_last t - tk_ts_first t)].
Definition n_display (c : config) (t : tracker) : list number :=
  needs n_rpnl t ;;
  needs n_turnover t ;;
  _ <-- buy_and_hold_return c t with n_hold (c_kind c) (c_scale c) t ;;
  n_days t.

(** A row gives a time in nanoseconds; rows after one that is refused are not read. *)
Fixpoint n_load (rows : list csv_row) : list number :=
  match rows with
  | [] => []
  | r :: rest =>
      guard (negb (cr_size r =? 0)) ;;
      need Tim (cr_ms r * 1000000) ;;
      n_load rest
  end.
Definition n_size (t : trade) : list number := match tr_side t with Buy => [] | Sell => [Amt (- tr_qty t)] end.
Definition n_paid (k : kind) (s cost qty : Z) : list number :=
  match k with
  | Linear => if qty =? 0 then [] else n_div s cost qty
  | Inverse => if cost =? 0 then [] else n_div s qty cost
  end.
Definition n_quantize (v quantum : Z) : list number :=
  r <-- drem v quantum with n_rem v quantum ;;
  [Amt (v - r)].

(** Times after the epoch that an [i64] can hold. *)
Definition sane_time (ts : Z) : Prop := 0 <= ts < 2 ^ 63.
