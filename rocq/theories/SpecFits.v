(** The numbers in states, arguments and results, for the property that all of them are machine integers. *)
From Verif Require Import Base Types Accounting Currency Position OrderBook OrderMargin MarketUpdate Tracker Exchange Spec SpecFixed.

(** An amount of money or a quantity or a price, a counter or an id, a time. *)
Inductive number := Amt (z : Z) | Cnt (z : Z) | Tim (z : Z).

(** Amounts are [w] bit integers, counters [u64] and times [i64]. *)
Definition machine_integer (w : Z) (n : number) : Prop :=
  match n with
  | Amt z => in_range w z
  | Cnt z => 0 <= z < 2 ^ 64
  | Tim z => in_range 64 z
  end.

Definition position_numbers (p : position) : list number :=
  match p with
  | Neutral => []
  | Long i | Short i => [Amt (pi_qty i); Amt (pi_entry i); Amt (pi_fees i)]
  end.
Definition order_numbers (o : limit_order) : list number :=
  [Amt (lo_price o); Amt (lo_rem o); Cnt (lo_id o); Tim (lo_ts o)] ++
  match lo_filled o with Unfilled => [] | FilledQ cum avg => [Amt cum; Amt avg] end.
Definition filled_numbers (o : filled_limit) : list number :=
  [Amt (fl_price o); Amt (fl_rem o); Amt (fl_avg o); Amt (fl_qty o); Cnt (fl_id o); Tim (fl_ts o); Tim (fl_exec_ts o)].
Definition report_numbers (u : order_update) : list number :=
  match u with PartiallyFilled o => order_numbers o | FullyFilled o => filled_numbers o end.
Definition total_numbers (t : taccount) : list number := [Amt (ta_debits t); Amt (ta_credits t)].
Definition ledger_numbers (a : accounts) : list number :=
  flat_map total_numbers [ac_wallet a; ac_om a; ac_pm a; ac_fee a; ac_broker a; ac_treasury a].
Definition market_numbers (m : market_state) : list number := [Amt (ms_bid m); Amt (ms_ask m); Tim (ms_ts m); Cnt (ms_step m)].
Definition tracker_numbers (t : tracker) : list number :=
  [Amt (tk_start t); Cnt (tk_sub_limit t); Cnt (tk_cancelled t); Cnt (tk_fill_events t); Cnt (tk_fully_filled t); Cnt (tk_sub_market t);
   Cnt (tk_filled_market t); Amt (tk_buy_volume t); Amt (tk_sell_volume t); Amt (tk_price_first t); Amt (tk_price_last t);
   Tim (tk_ts_first t); Tim (tk_ts_last t); Amt (tk_last_balance_sum t)] ++ map Amt (tk_samples t).
Definition trigger_numbers (t : trigger) : list number := [Tim (tg_interval t); Tim (tg_last t)].

(** Everything an exchange stores. *)
Definition state_numbers (e : exchange) : list number :=
  market_numbers (ex_ms e) ++ tracker_numbers (ex_trk e) ++ [Cnt (ex_next_id e)] ++ ledger_numbers (ex_acc e) ++
  position_numbers (ex_pos e) ++ flat_map order_numbers (ex_active e) ++ flat_map order_numbers (ex_om e) ++
  trigger_numbers (ex_trig e) ++ flat_map report_numbers (ex_updates e).

Definition trade_numbers (t : trade) : list number := [Amt (tr_price t); Amt (tr_qty t); Tim (tr_ts t)].
Definition bba_numbers (b : bba) : list number := [Amt (bb_bid b); Amt (bb_ask b); Tim (bb_ts b)].
Definition raw_numbers (r : raw_update) : list number :=
  match r with
  | RBba b => bba_numbers b
  | RTrade t => trade_numbers t
  | RCandle k => [Amt (cd_bid k); Amt (cd_ask k); Amt (cd_low k); Amt (cd_high k); Tim (cd_ts k)]
  | RSmart ts b _ => flat_map trade_numbers ts ++ bba_numbers b
  end.

(** The arguments of a call, other than ids, and its result. *)
Definition op_numbers (o : op) : list number :=
  match o with
  | OpUpdate r | OpCheck r => raw_numbers r
  | OpMarket _ qty _ => [Amt qty]
  | OpLimit _ price qty _ | OpAmend _ _ price qty _ => [Amt price; Amt qty]
  | OpCancel _ => []
  end.
Definition market_order_numbers (o : filled_market) : list number :=
  [Amt (fm_qty o); Amt (fm_avg o); Amt (fm_filled o); Cnt (fm_id o); Tim (fm_ts o); Tim (fm_exec_ts o)].
Definition out_numbers (r : result error out) : list number :=
  match r with
  | Ok (OutUpdates l) => flat_map report_numbers l
  | Ok (OutMarket o) => market_order_numbers o
  | Ok (OutLimit o) => order_numbers o
  | Ok OutUnit | Err _ => []
  end.
