(** What [Display] prints.  How const_decimal prints a number is the parameter [num]; integers are printed as Rust does.
    Not modelled: [Debug] output (and so [Display] of a limit order, which contains it) and [Display] of the account trackers; errors are in Messages.v. *)
From Coq Require Import String DecimalString.
From Verif Require Import Base Types Position OrderBook MarketUpdate Exchange.
Open Scope string_scope.

(** [Display] of i64, u64 and usize; src/types/timestamp_ns.rs:28-32, src/types/order_id.rs:20-24. *)
Definition show_int (z : Z) : string := NilEmpty.string_of_int (Z.to_int z).

(** src/types/smol_currency/quote_currency.rs:258-265 and base_currency.rs:240-247. *)
Definition show_quote (num : Z -> string) (z : Z) : string := num z ++ " Quote".
Definition show_base (num : Z -> string) (z : Z) : string := num z ++ " Base".
(** The currency of quantities and the currency of margin. *)
Definition show_qty (k : kind) : (Z -> string) -> Z -> string := match k with Linear => show_base | Inverse => show_quote end.
Definition show_margin (k : kind) : (Z -> string) -> Z -> string := match k with Linear => show_quote | Inverse => show_base end.

(** src/types/side.rs:36-40; the derived [Debug] prints the name. *)
Definition show_side (sd : side) : string := match sd with Buy => "Buy" | Sell => "Sell" end.

(** src/market_update/bba_update.rs:37-44 *)
Definition print_bba (num : Z -> string) (b : bba) : string := "bid: " ++ show_quote num (bb_bid b) ++ ", ask: " ++ show_quote num (bb_ask b).
(** src/market_update/trade_update.rs:29-41 *)
Definition print_trade (k : kind) (num : Z -> string) (t : trade) : string :=
  "price " ++ show_quote num (tr_price t) ++ ", quantity: " ++ show_qty k num (tr_qty t) ++ ", side: " ++ show_side (tr_side t).
(** src/market_update/candle_update.rs:31-42 *)
Definition print_candle (num : Z -> string) (x : candle) : string :=
  "bid: " ++ show_quote num (cd_bid x) ++ ", ask: " ++ show_quote num (cd_ask x) ++ ", high: " ++ show_quote num (cd_high x) ++ ", low: " ++ show_quote num (cd_low x).
(** src/market_update/smart_candle.rs:120-134 *)
Definition print_smart (x : smart_candle) : string :=
  "SmartCandle with " ++ show_int (Z.of_nat (length (sc_buys x))) ++ " buy volume levels and " ++ show_int (Z.of_nat (length (sc_sells x))) ++
  " sell volume levels. last_timestamp_exchange_ns: " ++ show_int (sc_ts x).
Definition print_update (k : kind) (num : Z -> string) (u : market_update) : string :=
  match u with UBba b => print_bba num b | UTrade t => print_trade k num t | UCandle x => print_candle num x | USmart x => print_smart x end.

(** src/market_state.rs:35-43 *)
Definition print_market (num : Z -> string) (m : market_state) : string :=
  "bid: " ++ show_quote num (ms_bid m) ++ ", ask: " ++ show_quote num (ms_ask m) ++ ", ts_ns: " ++ show_int (ms_ts m) ++ ", step: " ++ show_int (ms_step m).

(** src/position_inner.rs:37-49 *)
Definition print_inner (k : kind) (num : Z -> string) (i : position_inner) : string :=
  "PositionInner( quantity: " ++ show_qty k num (pi_qty i) ++ ", outstanding_fees: " ++ show_margin k num (pi_fees i) ++ ")".
(** src/position.rs:263-280 *)
Definition print_position (k : kind) (num : Z -> string) (p : position) : string :=
  match p with
  | Neutral => "Neutral"
  | Long i => "Long " ++ show_qty k num (pi_qty i) ++ " @ " ++ show_quote num (pi_entry i)
  | Short i => "Short " ++ show_qty k num (pi_qty i) ++ " @ " ++ show_quote num (pi_entry i)
  end.

(** src/types/mod.rs:49-61 *)
Definition print_balances (k : kind) (num : Z -> string) (b : user_balances) : string :=
  "available_balance: " ++ show_margin k num (ub_wallet b) ++ ", position_margin: " ++ show_margin k num (ub_pm b) ++ ", order_margin: " ++ show_margin k num (ub_om b).

(** src/types/order_meta.rs:28-36 *)
Definition print_meta (id ts : Z) : string := "ExchangeOrderMeta( id: " ++ show_int id ++ ", ts_ns_exchange_received: " ++ show_int ts ++ ")".
(** src/types/order_status.rs:76-94 *)
Definition print_filled_quantity (k : kind) (num : Z -> string) (x : filled_quantity) : string :=
  match x with
  | Unfilled => "Unfilled"
  | FilledQ q p => "Filled( cumulative_qty: " ++ show_qty k num q ++ ", avg_price: " ++ show_quote num p ++ ")"
  end.
(** src/types/order_status.rs:43-55, the state of a resting order. *)
Definition print_pending (k : kind) (num : Z -> string) (o : limit_order) : string :=
  "Pending ( meta: " ++ print_meta (lo_id o) (lo_ts o) ++ ", filled_quantity: " ++ print_filled_quantity k num (lo_filled o) ++ ")".
(** src/types/order_status.rs:143-155, the state of a filled order. *)
Definition print_filled (k : kind) (num : Z -> string) (o : filled_limit) : string :=
  "Filled( meta: " ++ print_meta (fl_id o) (fl_ts o) ++ ", ts_ns_executed: " ++ show_int (fl_exec_ts o) ++ ", avg_fill_price: " ++ show_quote num (fl_avg o) ++
  ", filled_qty: " ++ show_qty k num (fl_qty o) ++ ")".

(** src/order_filters/price_filter.rs:55-78 *)
Definition print_price (num : Z -> string) (p : option Z) : string := match p with Some z => show_quote num z | None => "None" end.
Definition print_price_filter (num : Z -> string) (f : price_filter) : string :=
  "PriceFilter( min_price: " ++ print_price num (pf_min f) ++ ", max_price: " ++ print_price num (pf_max f) ++ ", tick_size: " ++ show_quote num (pf_tick f) ++
  ", multiplier_up: " ++ num (pf_up f) ++ ", multiplier_down: " ++ num (pf_down f) ++ " )".
