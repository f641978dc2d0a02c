(** Market updates and the market state. *)
From Verif Require Import Base Types Filters Currency OrderBook OrderMargin.

(** src/market_state.rs:13-33 *)
Record market_state := { ms_bid : Z; ms_ask : Z; ms_ts : Z; ms_step : Z }.

(** [#[derive(Default)]], src/market_state.rs:13 *)
Definition market_state_default : market_state :=
  {| ms_bid := 0; ms_ask := 0; ms_ts := 0; ms_step := 0 |}.

(** src/market_state.rs:77-79, [mid_price]: [(bid + ask) / 2]; dividing the scaled sum by the decimal
    two is [quot ((bid+ask)*S) (2*S)] = [quot (bid+ask) 2]. *)
Definition mid_price (m : market_state) : Z := Z.quot (ms_bid m + ms_ask m) 2.

(** src/market_update/trade_update.rs:14-33 *)
Record trade := { tr_price : Z; tr_qty : Z; tr_side : side; tr_ts : Z }.

(** src/market_update/bba_update.rs:14-25 *)
Record bba := { bb_bid : Z; bb_ask : Z; bb_ts : Z }.

(** src/market_update/candle_update.rs:13-30 *)
Record candle := { cd_bid : Z; cd_ask : Z; cd_low : Z; cd_high : Z; cd_ts : Z }.

(** src/market_update/smart_candle.rs:13-32 *)
Record smart_candle := {
  sc_high : Z;
  sc_low : Z;
  sc_buys : list (Z * Z);     (* aggregate_buy_volume *)
  sc_sells : list (Z * Z);    (* aggregate_sell_volume *)
  sc_bba : bba;
  sc_ts : Z
}.

(** The implementors of [MarketUpdate]. *)
Inductive market_update :=
| UBba (b : bba)
| UTrade (t : trade)
| UCandle (k : candle)
| USmart (s : smart_candle).

(** Sequencing of the [?] operator inside the validation functions. *)
Definition and_then {E A B} (r : outcome (result E A)) (k : outcome (result E B))
  : outcome (result E B) :=
  x <- r ;; match x with Ok _ => k | Err e => Done (Err e) end.

(** src/market_update/bba_update.rs:61-70 *)
Definition validate_bba (f : price_filter) (b : bba) : outcome (result filter_error unit) :=
  and_then (Done (enforce_min_price (pf_min f) (bb_bid b)))
  (and_then (Done (enforce_min_price (pf_min f) (bb_ask b)))
  (and_then (Done (enforce_max_price (pf_max f) (bb_bid b)))
  (and_then (Done (enforce_max_price (pf_max f) (bb_ask b)))
  (and_then (enforce_step_size (pf_tick f) (bb_bid b))
  (and_then (enforce_step_size (pf_tick f) (bb_ask b))
  (Done (enforce_bid_ask_spread (bb_bid b) (bb_ask b)))))))).

(** src/market_update/trade_update.rs:75-80 *)
Definition validate_trade (f : price_filter) (t : trade) : outcome (result filter_error unit) :=
  and_then (Done (enforce_min_price (pf_min f) (tr_price t)))
  (and_then (Done (enforce_max_price (pf_max f) (tr_price t)))
  (enforce_step_size (pf_tick f) (tr_price t))).

(** src/market_update/candle_update.rs:73-89 *)
Definition validate_candle (f : price_filter) (k : candle) : outcome (result filter_error unit) :=
  and_then (Done (enforce_min_price (pf_min f) (cd_bid k)))
  (and_then (Done (enforce_min_price (pf_min f) (cd_ask k)))
  (and_then (Done (enforce_min_price (pf_min f) (cd_low k)))
  (and_then (Done (enforce_min_price (pf_min f) (cd_high k)))
  (and_then (Done (enforce_max_price (pf_max f) (cd_bid k)))
  (and_then (Done (enforce_max_price (pf_max f) (cd_ask k)))
  (and_then (Done (enforce_max_price (pf_max f) (cd_low k)))
  (and_then (Done (enforce_max_price (pf_max f) (cd_high k)))
  (and_then (enforce_step_size (pf_tick f) (cd_bid k))
  (and_then (enforce_step_size (pf_tick f) (cd_ask k))
  (and_then (enforce_step_size (pf_tick f) (cd_low k))
  (and_then (enforce_step_size (pf_tick f) (cd_high k))
  (and_then (Done (enforce_bid_ask_spread (cd_bid k) (cd_ask k)))
  (Done (enforce_bid_ask_spread (cd_low k) (cd_high k))))))))))))))).

(** [validate_market_update] of each implementor; for SmartCandle src/market_update/smart_candle.rs:180-186. *)
Definition validate_market_update (f : price_filter) (u : market_update)
  : outcome (result filter_error unit) :=
  match u with
  | UBba b => validate_bba f b
  | UTrade t => validate_trade f t
  | UCandle k => validate_candle f k
  | USmart _ => Done (Ok tt)
  end.

(** [CAN_FILL_LIMIT_ORDERS]: bba_update.rs:51, trade_update.rs:48, candle_update.rs:49, smart_candle.rs:141. *)
Definition can_fill (u : market_update) : bool :=
  match u with UBba _ => false | _ => true end.

(** [timestamp_exchange_ns]: bba_update.rs:79-81, trade_update.rs:86-88, candle_update.rs:98-100,
    smart_candle.rs:196-198. *)
Definition update_ts (u : market_update) : Z :=
  match u with
  | UBba b => bb_ts b
  | UTrade t => tr_ts t
  | UCandle k => cd_ts k
  | USmart s => sc_ts s
  end.

(** [update_market_state]: bba_update.rs:73-76, trade_update.rs:83, candle_update.rs:92-95,
    smart_candle.rs:190-193. *)
Definition update_market_state (u : market_update) (m : market_state) : market_state :=
  match u with
  | UBba b => {| ms_bid := bb_bid b; ms_ask := bb_ask b; ms_ts := ms_ts m; ms_step := ms_step m |}
  | UTrade _ => m
  | UCandle k => {| ms_bid := cd_bid k; ms_ask := cd_ask k; ms_ts := ms_ts m; ms_step := ms_step m |}
  | USmart s => {| ms_bid := bb_bid (sc_bba s); ms_ask := bb_ask (sc_bba s);
                   ms_ts := ms_ts m; ms_step := ms_step m |}
  end.

(** src/market_state.rs:56-73, [update_state] (always [Ok] in the code). *)
Definition market_update_state (dbg : bool) (f : price_filter) (u : market_update) (m : market_state)
  : outcome market_state :=
  _ <- debug_assert_m dbg (v <- validate_market_update f u ;; Done (is_ok v)) PInvalidUpdateDebug ;;
  let m1 := update_market_state u m in
  Done {| ms_bid := ms_bid m1; ms_ask := ms_ask m1; ms_ts := update_ts u; ms_step := ms_step m1 + 1 |}.

(** src/market_update/trade_update.rs:51-73 *)
Definition trade_fills (dbg : bool) (t : trade) (o : limit_order) : outcome (option Z) :=
  _ <- debug_assert dbg (0 <? tr_qty t) PTradeQtyDebug ;;
  _ <- debug_assert dbg (0 <? lo_rem o) PTradeRemDebug ;;
  let crossed :=
    match lo_side o, tr_side t with
    | Buy, Sell => tr_price t <? lo_price o
    | Sell, Buy => lo_price o <? tr_price t
    | _, _ => false
    end in
  Done (if crossed then Some (umin (tr_qty t) (lo_rem o)) else None).

(** src/market_update/candle_update.rs:52-71 *)
Definition candle_fills (dbg : bool) (k : candle) (o : limit_order) : outcome (option Z) :=
  _ <- debug_assert dbg (0 <? lo_rem o) PCandleRemDebug ;;
  let crossed :=
    match lo_side o with
    | Buy => cd_low k <? lo_price o
    | Sell => lo_price o <? cd_high k
    end in
  Done (if crossed then Some (lo_rem o) else None).

(** src/market_update/smart_candle.rs:145-177; [.iter().rev().find(..)] is [find] on the reversed list. *)
Definition smart_fills (sc : smart_candle) (o : limit_order) : option Z :=
  match lo_side o with
  | Buy =>
      if lo_price o <=? sc_low sc then None
      else option_map (fun v => umin (snd v) (lo_rem o))
             (find (fun v : Z * Z => fst v <? lo_price o) (rev (sc_sells sc)))
  | Sell =>
      if sc_high sc <=? lo_price o then None
      else option_map (fun v => umin (snd v) (lo_rem o))
             (find (fun v : Z * Z => lo_price o <? fst v) (rev (sc_buys sc)))
  end.

(** [limit_order_filled] of each implementor. *)
Definition limit_order_filled (dbg : bool) (u : market_update) (o : limit_order) : outcome (option Z) :=
  match u with
  | UBba _ => Panic PBbaUnreachable
  | UTrade t => trade_fills dbg t o
  | UCandle k => candle_fills dbg k o
  | USmart s => Done (smart_fills s o)
  end.

(** The aggregation loops src/market_update/smart_candle.rs:80-92 and 95-107. *)
Fixpoint aggregate_loop (last sum : Z) (l : list (Z * Z)) : list (Z * Z) :=
  match l with
  | [] => [(last, sum)]
  | (p, q) :: rest =>
      if p =? last then aggregate_loop last (sum + q) rest
      else (last, sum) :: aggregate_loop p (sum + q) rest
  end.
Definition aggregate (l : list (Z * Z)) : list (Z * Z) :=
  match l with
  | [] => []
  | (p, _) :: _ => aggregate_loop p 0 l
  end.

Definition trades_of (sd : side) (l : list trade) : list (Z * Z) :=
  map (fun t => (tr_price t, tr_qty t))
      (filter (fun t => if side_eq_dec (tr_side t) sd then true else false) l).

(** Evaluation of [taker_trades.iter().any(|t| t.validate(..).is_ok())], short-circuiting. *)
Fixpoint any_valid (f : price_filter) (l : list trade) : outcome bool :=
  match l with
  | [] => Done false
  | t :: rest =>
      v <- validate_trade f t ;;
      if is_ok v then Done true else any_valid f rest
  end.

(** src/market_update/smart_candle.rs:40-117, [SmartCandle::new].  glidesort is a stable sort.
    The debug assertion on each quantity (line 61) is checked before the aggregation, as in the loop. *)
Definition smart_candle_new (dbg : bool) (trades : list trade) (b : bba) (f : price_filter)
  : outcome smart_candle :=
  match trades with
  | [] => Panic PSmartEmpty
  | t0 :: _ =>
      _ <- debug_assert_m dbg (any_valid f trades) PSmartNoValidDebug ;;
      v <- validate_bba f b ;;
      _ <- assert (is_ok v) PSmartBba ;;
      _ <- debug_assert dbg (forallb (fun t => 0 <? tr_qty t) trades) PSmartQtyDebug ;;
      let low := fold_left (fun acc t => if tr_price t <? acc then tr_price t else acc) trades (tr_price t0) in
      let high := fold_left (fun acc t => if acc <? tr_price t then tr_price t else acc) trades (tr_price t0) in
      let buys := sort_by_key (fun x => - fst x) (trades_of Buy trades) in
      let sells := sort_by_key (fun x => fst x) (trades_of Sell trades) in
      Done {| sc_high := high; sc_low := low; sc_buys := aggregate buys; sc_sells := aggregate sells;
              sc_bba := b; sc_ts := tr_ts (last trades t0) |}
  end.

(** What a caller can hand to [update_state]: [Bba], [Trade] and [Candle] have public fields, a
    [SmartCandle] can only be built by its constructor, from any trades, bba and price filter. *)
Inductive raw_update :=
| RBba (b : bba)
| RTrade (t : trade)
| RCandle (k : candle)
| RSmart (trades : list trade) (b : bba) (f : price_filter).

Definition build_update (dbg : bool) (r : raw_update) : outcome market_update :=
  match r with
  | RBba b => Done (UBba b)
  | RTrade t => Done (UTrade t)
  | RCandle k => Done (UCandle k)
  | RSmart ts b f => sc <- smart_candle_new dbg ts b f ;; Done (USmart sc)
  end.
