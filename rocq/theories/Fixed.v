(** The exchange computing with machine integers: the functions of the model with every arithmetic operation of the
    code checked.  [w] is the number of bits of the currency type.  Functions of the model without arithmetic are used
    unchanged.  Source lines are those of the functions of the same name without prefix. *)
From Verif Require Import Base Types Filters Accounting Currency Position OrderBook OrderMargin
  Risk MarketUpdate Tracker Exchange Width.

(** ** Currencies *)
Definition w_convert_from (w : Z) (k : kind) (s units price : Z) : checked Z :=
  match k with
  | Linear => cmul w s units price
  | Inverse => cdiv w s units price
  end.

Definition w_pnl (w : Z) (k : kind) (s entry exit qty : Z) : checked Z :=
  if qty =? 0 then ret 0 else
  match k with
  | Linear =>
      a <~ w_convert_from w Linear s qty exit ;;
      b <~ w_convert_from w Linear s qty entry ;;
      csub w a b
  | Inverse =>
      a <~ w_convert_from w Inverse s qty entry ;;
      b <~ w_convert_from w Inverse s qty exit ;;
      csub w a b
  end.

Definition w_liquidation_price_long (w s price mm : Z) : checked Z :=
  f <~ csub w s mm ;; cmul w s price f.
Definition w_liquidation_price_short (w s price mm : Z) : checked Z :=
  f <~ cadd w s mm ;; cmul w s price f.

Definition w_new_weighted_price (w s p0 w0 p1 w1 : Z) : checked Z :=
  total_weight <~ cadd w w0 w1 ;;
  a <~ cmul w s p0 w0 ;;
  b <~ cmul w s p1 w1 ;;
  sum <~ cadd w a b ;;
  cdiv w s sum total_weight.

(** ** Accounting *)
Definition w_margin_balance_of (w : Z) (acc : accounts) (id : account_id) : checked Z :=
  let a := get_account acc id in
  csub w (ta_debits a) (ta_credits a).

(** The loop of the debug assertion, src/accounting/utils.rs:15-21. *)
Fixpoint w_sum (w acc : Z) (l : list Z) : checked Z :=
  match l with
  | [] => ret acc
  | x :: rest => acc' <~ cadd w acc x ;; w_sum w acc' rest
  end.
Definition w_accounting_equation (w : Z) (dbg : bool) (a : accounts) : checked unit :=
  cdebug_assert_m dbg
    (d <~ w_sum w 0 (map ta_debits [ac_wallet a; ac_om a; ac_pm a; ac_fee a; ac_broker a; ac_treasury a]) ;;
     c <~ w_sum w 0 (map ta_credits [ac_wallet a; ac_om a; ac_pm a; ac_fee a; ac_broker a; ac_treasury a]) ;;
     ret (d =? c)) PAccountingEquation.

Definition w_accounting_new (w : Z) (dbg : bool) (start : Z) : checked accounts :=
  let z := {| ta_debits := 0; ta_credits := 0 |} in
  debits <~ cadd w 0 start ;;
  credits <~ cadd w 0 start ;;
  let a := {| ac_wallet := {| ta_debits := debits; ta_credits := 0 |}; ac_om := z; ac_pm := z; ac_fee := z;
              ac_broker := z; ac_treasury := {| ta_debits := 0; ta_credits := credits |} |} in
  _ <~ w_accounting_equation w dbg a ;;
  ret a.

Definition w_transfer (w : Z) (dbg : bool) (acc : accounts) (d c : account_id) (amt : Z) : checked accounts :=
  tx <~ Fine (transaction_new d c amt) ;;
  let da := get_account acc (tx_debit tx) in
  let ca := get_account acc (tx_credit tx) in
  debits <~ cadd w (ta_debits da) (tx_amount tx) ;;
  credits <~ cadd w (ta_credits ca) (tx_amount tx) ;;
  let acc1 := set_account acc (tx_credit tx) {| ta_debits := ta_debits ca; ta_credits := credits |} in
  let acc2 := set_account acc1 (tx_debit tx) {| ta_debits := debits; ta_credits := ta_credits da |} in
  _ <~ w_accounting_equation w dbg acc2 ;;
  ret acc2.

(** ** Filters *)
Definition w_validate_limit_price (w s : Z) (f : price_filter) (limit mark : Z)
  : checked (result order_error unit) :=
  if limit <=? 0 then ret (Err LimitPriceBelowMin) else
  if match pf_max f with Some m => m <? limit | None => false end
  then ret (Err LimitPriceAboveMax) else
  if match pf_min f with Some m => limit <? m | None => false end
  then ret (Err LimitPriceBelowMin) else
  let min_price := match pf_min f with Some m => m | None => 0 end in
  d <~ csub w limit min_price ;;
  r <~ crem w d (pf_tick f) ;;
  if negb (r =? 0) then ret (Err InvalidOrderPriceStepSize) else
  up <~ cmul w s mark (pf_up f) ;;
  if (up <? limit) && negb (pf_up f =? 0)
  then ret (Err LimitPriceAboveMultiple) else
  down <~ cmul w s mark (pf_down f) ;;
  if (limit <? down) && negb (pf_down f =? 0)
  then ret (Err LimitPriceBelowMultiple) else
  ret (Ok tt).

Definition w_enforce_step_size (w step price : Z) : checked (result filter_error unit) :=
  r <~ crem w price step ;;
  ret (if negb (r =? 0) then Err MarketUpdatePriceStepSize else Ok tt).

Definition w_validate_order_quantity (w : Z) (f : quantity_filter) (q : Z)
  : checked (result order_error unit) :=
  if q =? 0 then ret (Err QuantityTooLow) else
  if match qf_max f with Some m => m <? q | None => false end
  then ret (Err QuantityTooHigh) else
  if match qf_min f with Some m => q <? m | None => false end
  then ret (Err QuantityTooLow) else
  let min_qty := match qf_min f with Some m => m | None => 0 end in
  d <~ csub w q min_qty ;;
  r <~ crem w d (qf_tick f) ;;
  if negb (r =? 0) then ret (Err InvalidQuantityStepSize) else ret (Ok tt).

(** ** Position *)
Definition w_inner_new (w : Z) (c : config) (acc : accounts) (qty price fees : Z)
  : checked (position_inner * accounts) :=
  let s := c_scale c in
  _ <~ Fine (assert (0 <? qty) PNewPosQty) ;;
  _ <~ Fine (assert (0 <? price) PNewPosPrice) ;;
  value <~ w_convert_from w (c_kind c) s qty price ;;
  margin <~ cmul w s value (ct_imr (c_spec c)) ;;
  acc1 <~ w_transfer w (c_dbg c) acc POSITION_MARGIN WALLET margin ;;
  ret ({| pi_qty := qty; pi_entry := price; pi_fees := fees |}, acc1).

Definition w_increase_contracts (w : Z) (c : config) (p : position_inner) (acc : accounts)
  (qty price fees : Z) : checked (position_inner * accounts) :=
  let s := c_scale c in
  _ <~ Fine (assert (0 <? qty) PIncQty) ;;
  _ <~ Fine (assert (0 <? price) PIncPrice) ;;
  value <~ w_convert_from w (c_kind c) s qty price ;;
  entry <~ w_new_weighted_price w s (pi_entry p) (pi_qty p) price qty ;;
  qty' <~ cadd w (pi_qty p) qty ;;
  fees' <~ cadd w (pi_fees p) fees ;;
  margin <~ cmul w s value (ct_imr (c_spec c)) ;;
  acc1 <~ w_transfer w (c_dbg c) acc POSITION_MARGIN WALLET margin ;;
  ret ({| pi_qty := qty'; pi_entry := entry; pi_fees := fees' |}, acc1).

Definition w_decrease_contracts (w : Z) (c : config) (p : position_inner) (acc : accounts)
  (qty price : Z) (long : bool) (fees : Z) : checked (position_inner * accounts) :=
  let s := c_scale c in
  let dbg := c_dbg c in
  _ <~ Fine (assert (0 <? qty) PDecQty) ;;
  _ <~ Fine (assert (qty <=? pi_qty p) PDecQtyTooLarge) ;;
  let entry := pi_entry p in
  qty' <~ csub w (pi_qty p) qty ;;
  fees' <~ cadd w (pi_fees p) fees ;;
  _ <~ Fine (debug_assert dbg (0 <=? qty') PDecQtyNegDebug) ;;
  signed <~ (if long then ret qty else cneg w qty) ;;
  profit <~ w_pnl w (c_kind c) s entry price signed ;;
  acc1 <~ match profit ?= 0 with
          | Gt => w_transfer w dbg acc WALLET TREASURY profit
          | Lt => loss <~ cabs w profit ;; w_transfer w dbg acc TREASURY WALLET loss
          | Eq => ret acc
          end ;;
  value <~ w_convert_from w (c_kind c) s qty entry ;;
  margin_to_free <~ cmul w s value (ct_imr (c_spec c)) ;;
  _ <~ Fine (debug_assert dbg (0 <? margin_to_free) PMarginToFreeDebug) ;;
  acc2 <~ w_transfer w dbg acc1 WALLET POSITION_MARGIN margin_to_free ;;
  if 0 <? fees' then
    acc3 <~ w_transfer w dbg acc2 FEE WALLET fees' ;;
    ret ({| pi_qty := qty'; pi_entry := entry; pi_fees := 0 |}, acc3)
  else
    ret ({| pi_qty := qty'; pi_entry := entry; pi_fees := fees' |}, acc2).

(** The position margin is only read when its assertion is compiled in. *)
Definition w_no_position_margin (w : Z) (dbg : bool) (acc : accounts) (p : panic_site) : checked unit :=
  cdebug_assert_m dbg (m <~ w_margin_balance_of w acc POSITION_MARGIN ;; ret (m =? 0)) p.

Definition w_change_position (w : Z) (c : config) (pos : position) (acc : accounts)
  (qty price : Z) (sd : side) (fees : Z) : checked (position * accounts) :=
  let dbg := c_dbg c in
  _ <~ Fine (debug_assert dbg (0 <? qty) PFillQtyPosDebug) ;;
  match pos with
  | Neutral =>
      _ <~ w_no_position_margin w dbg acc PNeutralMarginDebug ;;
      '(i, acc1) <~ w_inner_new w c acc qty price fees ;;
      match sd with
      | Buy => ret (Long i, acc1)
      | Sell => ret (Short i, acc1)
      end
  | Long inner =>
      match sd with
      | Buy =>
          '(i, acc1) <~ w_increase_contracts w c inner acc qty price fees ;;
          ret (Long i, acc1)
      | Sell =>
          match qty ?= pi_qty inner with
          | Lt =>
              '(i, acc1) <~ w_decrease_contracts w c inner acc qty price true fees ;;
              ret (Long i, acc1)
          | Eq =>
              '(i, acc1) <~ w_decrease_contracts w c inner acc qty price true fees ;;
              _ <~ w_no_position_margin w dbg acc1 PCloseMarginDebug ;;
              ret (Neutral, acc1)
          | Gt =>
              new_short_qty <~ csub w qty (pi_qty inner) ;;
              '(i, acc1) <~ w_decrease_contracts w c inner acc (pi_qty inner) price true fees ;;
              _ <~ Fine (assert (pi_qty i =? 0) PFlipQty) ;;
              left <~ w_margin_balance_of w acc1 POSITION_MARGIN ;;
              _ <~ Fine (assert (left =? 0) PFlipMargin) ;;
              '(j, acc2) <~ w_inner_new w c acc1 new_short_qty price 0 ;;
              ret (Short j, acc2)
          end
      end
  | Short inner =>
      match sd with
      | Buy =>
          match qty ?= pi_qty inner with
          | Lt =>
              '(i, acc1) <~ w_decrease_contracts w c inner acc qty price false fees ;;
              ret (Short i, acc1)
          | Eq =>
              '(i, acc1) <~ w_decrease_contracts w c inner acc qty price false fees ;;
              _ <~ w_no_position_margin w dbg acc1 PCloseMarginDebug ;;
              ret (Neutral, acc1)
          | Gt =>
              new_long_qty <~ csub w qty (pi_qty inner) ;;
              '(i, acc1) <~ w_decrease_contracts w c inner acc (pi_qty inner) price false fees ;;
              _ <~ Fine (assert (pi_qty i =? 0) PFlipQty) ;;
              left <~ w_margin_balance_of w acc1 POSITION_MARGIN ;;
              _ <~ Fine (assert (left =? 0) PFlipMargin) ;;
              '(j, acc2) <~ w_inner_new w c acc1 new_long_qty price 0 ;;
              ret (Long j, acc2)
          end
      | Sell =>
          '(i, acc1) <~ w_increase_contracts w c inner acc qty price fees ;;
          ret (Short i, acc1)
      end
  end.

(** ** Limit orders *)
Definition w_lo_total_quantity (w : Z) (o : limit_order) : checked Z :=
  q <~ match lo_filled o with
       | Unfilled => ret (lo_rem o)
       | FilledQ cum _ => cadd w (lo_rem o) cum
       end ;;
  _ <~ Fine (assert (0 <? q) PTotalQuantity) ;;
  ret q.

Definition w_order_fill (w s : Z) (o : limit_order) (q ts : Z)
  : checked (limit_order * option filled_limit) :=
  _ <~ Fine (assert (q <=? lo_rem o) PFillTooLarge) ;;
  _ <~ Fine (assert (0 <? q) PFillNonPos) ;;
  let price := lo_price o in
  match lo_filled o with
  | Unfilled =>
      rem <~ csub w (lo_rem o) q ;;
      let o' := {| lo_uid := lo_uid o; lo_side := lo_side o; lo_price := lo_price o;
                   lo_rem := rem; lo_id := lo_id o; lo_ts := lo_ts o;
                   lo_filled := FilledQ q price |} in
      if q =? lo_rem o then
        ret (o', Some {| fl_uid := lo_uid o; fl_side := lo_side o; fl_price := lo_price o;
                         fl_rem := 0; fl_id := lo_id o; fl_ts := lo_ts o; fl_exec_ts := ts;
                         fl_avg := price; fl_qty := q |})
      else ret (o', None)
  | FilledQ cum avg =>
      new_qty <~ cadd w cum q ;;
      avg' <~ w_new_weighted_price w s avg cum price q ;;
      rem <~ csub w (lo_rem o) q ;;
      let o' := {| lo_uid := lo_uid o; lo_side := lo_side o; lo_price := lo_price o;
                   lo_rem := rem; lo_id := lo_id o; lo_ts := lo_ts o;
                   lo_filled := FilledQ new_qty avg' |} in
      if rem =? 0 then
        ret (o', Some {| fl_uid := lo_uid o; fl_side := lo_side o; fl_price := lo_price o;
                         fl_rem := 0; fl_id := lo_id o; fl_ts := lo_ts o; fl_exec_ts := ts;
                         fl_avg := price; fl_qty := new_qty |})
      else ret (o', None)
  end.

(** ** Order margin *)
(** The sort keys [order.0.neg()]; a sort of fewer than two elements computes no key. *)
Fixpoint w_neg_all (w : Z) (l : list (Z * Z)) : checked unit :=
  match l with
  | [] => ret tt
  | x :: rest => _ <~ cneg w (fst x) ;; w_neg_all w rest
  end.
Definition w_sort_keys (w : Z) (l : list (Z * Z)) : checked unit :=
  match l with
  | [] | [_] => ret tt
  | _ => w_neg_all w l
  end.

Fixpoint w_offset_orders (w outstanding : Z) (orders : list (Z * Z)) : checked (list (Z * Z)) :=
  match orders with
  | [] => ret []
  | (price, q) :: rest =>
      if 0 <? outstanding then
        d <~ csub w q outstanding ;;
        left <~ csub w outstanding (umin q outstanding) ;;
        rest' <~ w_offset_orders w left rest ;;
        ret ((price, umax d 0) :: rest')
      else ret orders
  end.

(** The value loops add to a running sum. *)
Fixpoint w_orders_value (w : Z) (k : kind) (s sum : Z) (orders : list (Z * Z)) : checked Z :=
  match orders with
  | [] => ret sum
  | (price, q) :: rest =>
      v <~ w_convert_from w k s q price ;;
      sum' <~ cadd w sum v ;;
      w_orders_value w k s sum' rest
  end.

Definition w_order_margin_internal (w : Z) (c : config) (book : list limit_order) (pos : position)
  (new_order : option limit_order) : checked Z :=
  let k := c_kind c in
  let s := c_scale c in
  let imr := ct_imr (c_spec c) in
  _ <~ Fine (debug_assert (c_dbg c) (imr <=? s) PImrDebug) ;;
  let extra sd := match new_order with
                  | Some o => if side_eq_dec (lo_side o) sd then [(lo_price o, lo_rem o)] else []
                  | None => []
                  end in
  let buys := side_orders Buy book ++ extra Buy in
  let sells := side_orders Sell book ++ extra Sell in
  _ <~ w_sort_keys w buys ;;
  let buys := sort_by_key (fun o => - fst o) buys in
  let sells := sort_by_key (fun o => fst o) sells in
  buys' <~ match pos with Short i => w_offset_orders w (pi_qty i) buys | _ => ret buys end ;;
  sells' <~ match pos with Long i => w_offset_orders w (pi_qty i) sells | _ => ret sells end ;;
  buy_value <~ w_orders_value w k s 0 buys' ;;
  sell_value <~ w_orders_value w k s 0 sells' ;;
  cmul w s (umax buy_value sell_value) imr.

Definition w_order_margin (w : Z) (c : config) (book : list limit_order) (pos : position) : checked Z :=
  w_order_margin_internal w c book pos None.
Definition w_order_margin_with_order (w : Z) (c : config) (book : list limit_order) (pos : position)
  (o : limit_order) : checked Z :=
  w_order_margin_internal w c book pos (Some o).

(** ** Risk engine *)
Definition w_check_market_open (w : Z) (c : config) (qty price wallet : Z) : checked (result risk_error unit) :=
  let s := c_scale c in
  notional <~ w_convert_from w (c_kind c) s qty price ;;
  margin_req <~ cmul w s notional (ct_imr (c_spec c)) ;;
  fee <~ cmul w s notional (ct_taker (c_spec c)) ;;
  need <~ cadd w margin_req fee ;;
  ret (if wallet <? need then Err NotEnoughAvailableBalance else Ok tt).

Definition w_check_market_reduce (w : Z) (c : config) (inner : position_inner)
  (position_margin qty price wallet : Z) : checked (result risk_error unit) :=
  let s := c_scale c in
  if qty <=? pi_qty inner then ret (Ok tt) else
  new_size <~ csub w qty (pi_qty inner) ;;
  new_notional <~ w_convert_from w (c_kind c) s new_size price ;;
  new_margin_req <~ cmul w s new_notional (ct_imr (c_spec c)) ;;
  fee <~ cmul w s new_notional (ct_taker (c_spec c)) ;;
  need <~ cadd w new_margin_req fee ;;
  have <~ cadd w wallet position_margin ;;
  ret (if have <? need then Err NotEnoughAvailableBalance else Ok tt).

Definition w_check_market_order (w : Z) (c : config) (pos : position) (position_margin : Z)
  (sd : side) (qty price wallet : Z) : checked (result risk_error unit) :=
  match sd, pos with
  | Buy, Short inner => w_check_market_reduce w c inner position_margin qty price wallet
  | Sell, Long inner => w_check_market_reduce w c inner position_margin qty price wallet
  | _, _ => w_check_market_open w c qty price wallet
  end.

Definition w_check_limit_order (w : Z) (c : config) (pos : position) (o : limit_order) (wallet : Z)
  (book : list limit_order) : checked (result risk_error unit) :=
  om <~ w_order_margin w c book pos ;;
  new_om <~ w_order_margin_with_order w c book pos o ;;
  have <~ cadd w wallet om ;;
  ret (if have <? new_om then Err NotEnoughAvailableBalance else Ok tt).

Definition w_check_maintenance_margin (w : Z) (c : config) (bid ask : Z) (pos : position)
  : checked (result risk_error unit) :=
  let s := c_scale c in
  let mm := ct_mm (c_spec c) in
  match pos with
  | Neutral => ret (Ok tt)
  | Long inner =>
      liq <~ w_liquidation_price_long w s (pi_entry inner) mm ;;
      ret (if bid <? liq then Err Liquidate else Ok tt)
  | Short inner =>
      liq <~ w_liquidation_price_short w s (pi_entry inner) mm ;;
      ret (if liq <? ask then Err Liquidate else Ok tt)
  end.

(** ** Market updates *)
Definition w_mid_price (w : Z) (m : market_state) : checked Z :=
  sum <~ cadd w (ms_bid m) (ms_ask m) ;; chk w (Z.quot sum 2).

Definition w_and_then {E A B} (r : checked (result E A)) (k : checked (result E B)) : checked (result E B) :=
  x <~ r ;; match x with Ok _ => k | Err e => ret (Err e) end.

Definition w_validate_bba (w : Z) (f : price_filter) (b : bba) : checked (result filter_error unit) :=
  w_and_then (ret (enforce_min_price (pf_min f) (bb_bid b)))
  (w_and_then (ret (enforce_min_price (pf_min f) (bb_ask b)))
  (w_and_then (ret (enforce_max_price (pf_max f) (bb_bid b)))
  (w_and_then (ret (enforce_max_price (pf_max f) (bb_ask b)))
  (w_and_then (w_enforce_step_size w (pf_tick f) (bb_bid b))
  (w_and_then (w_enforce_step_size w (pf_tick f) (bb_ask b))
  (ret (enforce_bid_ask_spread (bb_bid b) (bb_ask b)))))))).

Definition w_validate_trade (w : Z) (f : price_filter) (t : trade) : checked (result filter_error unit) :=
  w_and_then (ret (enforce_min_price (pf_min f) (tr_price t)))
  (w_and_then (ret (enforce_max_price (pf_max f) (tr_price t)))
  (w_enforce_step_size w (pf_tick f) (tr_price t))).

Definition w_validate_candle (w : Z) (f : price_filter) (k : candle) : checked (result filter_error unit) :=
  w_and_then (ret (enforce_min_price (pf_min f) (cd_bid k)))
  (w_and_then (ret (enforce_min_price (pf_min f) (cd_ask k)))
  (w_and_then (ret (enforce_min_price (pf_min f) (cd_low k)))
  (w_and_then (ret (enforce_min_price (pf_min f) (cd_high k)))
  (w_and_then (ret (enforce_max_price (pf_max f) (cd_bid k)))
  (w_and_then (ret (enforce_max_price (pf_max f) (cd_ask k)))
  (w_and_then (ret (enforce_max_price (pf_max f) (cd_low k)))
  (w_and_then (ret (enforce_max_price (pf_max f) (cd_high k)))
  (w_and_then (w_enforce_step_size w (pf_tick f) (cd_bid k))
  (w_and_then (w_enforce_step_size w (pf_tick f) (cd_ask k))
  (w_and_then (w_enforce_step_size w (pf_tick f) (cd_low k))
  (w_and_then (w_enforce_step_size w (pf_tick f) (cd_high k))
  (w_and_then (ret (enforce_bid_ask_spread (cd_bid k) (cd_ask k)))
  (ret (enforce_bid_ask_spread (cd_low k) (cd_high k))))))))))))))).

Definition w_validate_market_update (w : Z) (f : price_filter) (u : market_update)
  : checked (result filter_error unit) :=
  match u with
  | UBba b => w_validate_bba w f b
  | UTrade t => w_validate_trade w f t
  | UCandle k => w_validate_candle w f k
  | USmart _ => ret (Ok tt)
  end.

Definition w_market_update_state (w : Z) (dbg : bool) (f : price_filter) (u : market_update) (m : market_state)
  : checked market_state :=
  _ <~ cdebug_assert_m dbg (v <~ w_validate_market_update w f u ;; ret (is_ok v)) PInvalidUpdateDebug ;;
  let m1 := update_market_state u m in
  step <~ count (ms_step m1 + 1) ;;
  ret {| ms_bid := ms_bid m1; ms_ask := ms_ask m1; ms_ts := update_ts u; ms_step := step |}.

Fixpoint w_any_valid (w : Z) (f : price_filter) (l : list trade) : checked bool :=
  match l with
  | [] => ret false
  | t :: rest =>
      v <~ w_validate_trade w f t ;;
      if is_ok v then ret true else w_any_valid w f rest
  end.

Fixpoint w_aggregate_loop (w last sum : Z) (l : list (Z * Z)) : checked (list (Z * Z)) :=
  match l with
  | [] => ret [(last, sum)]
  | (p, q) :: rest =>
      sum' <~ cadd w sum q ;;
      if p =? last then w_aggregate_loop w last sum' rest
      else rest' <~ w_aggregate_loop w p sum' rest ;; ret ((last, sum) :: rest')
  end.
Definition w_aggregate (w : Z) (l : list (Z * Z)) : checked (list (Z * Z)) :=
  match l with
  | [] => ret []
  | (p, _) :: _ => w_aggregate_loop w p 0 l
  end.

Definition w_smart_candle_new (w : Z) (dbg : bool) (trades : list trade) (b : bba) (f : price_filter)
  : checked smart_candle :=
  match trades with
  | [] => Fine (Panic PSmartEmpty)
  | t0 :: _ =>
      _ <~ cdebug_assert_m dbg (w_any_valid w f trades) PSmartNoValidDebug ;;
      v <~ w_validate_bba w f b ;;
      _ <~ Fine (assert (is_ok v) PSmartBba) ;;
      _ <~ Fine (debug_assert dbg (forallb (fun t => 0 <? tr_qty t) trades) PSmartQtyDebug) ;;
      let low := fold_left (fun acc t => if tr_price t <? acc then tr_price t else acc) trades (tr_price t0) in
      let high := fold_left (fun acc t => if acc <? tr_price t then tr_price t else acc) trades (tr_price t0) in
      _ <~ w_sort_keys w (trades_of Buy trades) ;;
      let buys := sort_by_key (fun x => - fst x) (trades_of Buy trades) in
      let sells := sort_by_key (fun x => fst x) (trades_of Sell trades) in
      buy_volume <~ w_aggregate w buys ;;
      sell_volume <~ w_aggregate w sells ;;
      ret {| sc_high := high; sc_low := low; sc_buys := buy_volume; sc_sells := sell_volume;
             sc_bba := b; sc_ts := tr_ts (last trades t0) |}
  end.

Definition w_build_update (w : Z) (dbg : bool) (r : raw_update) : checked market_update :=
  match r with
  | RBba b => ret (UBba b)
  | RTrade t => ret (UTrade t)
  | RCandle k => ret (UCandle k)
  | RSmart ts b f => sc <~ w_smart_candle_new w dbg ts b f ;; ret (USmart sc)
  end.

(** ** Account tracker *)
(** The counters are [usize]. *)
Definition w_tracker_add (w : Z) (t : tracker) (sub_limit cancelled fill_events fully sub_market filled_market
                                                buy sell : Z) : checked tracker :=
  _ <~ count (tk_sub_limit t + sub_limit) ;;
  _ <~ count (tk_cancelled t + cancelled) ;;
  _ <~ count (tk_fill_events t + fill_events) ;;
  _ <~ count (tk_fully_filled t + fully) ;;
  _ <~ count (tk_sub_market t + sub_market) ;;
  _ <~ count (tk_filled_market t + filled_market) ;;
  _ <~ cadd w (tk_buy_volume t) buy ;;
  _ <~ cadd w (tk_sell_volume t) sell ;;
  ret (tracker_add t sub_limit cancelled fill_events fully sub_market filled_market buy sell).

Definition w_log_limit_order_submission (w : Z) (t : tracker) := w_tracker_add w t 1 0 0 0 0 0 0 0.
Definition w_log_limit_order_cancellation (w : Z) (t : tracker) := w_tracker_add w t 0 1 0 0 0 0 0 0.
Definition w_log_limit_order_fill (w : Z) (t : tracker) (fully : bool) :=
  w_tracker_add w t 0 0 1 (if fully then 1 else 0) 0 0 0 0.
Definition w_log_market_order_fill (w : Z) (t : tracker) := w_tracker_add w t 0 0 0 0 0 1 0 0.
Definition w_log_market_order_submission (w : Z) (t : tracker) := w_tracker_add w t 0 0 0 0 1 0 0 0.
Definition w_log_trade (w : Z) (c : config) (t : tracker) (sd : side) (price qty : Z) : checked tracker :=
  _ <~ Fine (assert (0 <? qty) PLogTradeQty) ;;
  value <~ w_convert_from w (c_kind c) (c_scale c) qty price ;;
  match sd with
  | Buy => w_tracker_add w t 0 0 0 0 0 0 value 0
  | Sell => w_tracker_add w t 0 0 0 0 0 0 0 value
  end.

(** [update] asks for the mid price. *)
Definition w_tracker_update (w : Z) (t : tracker) (m : market_state) : checked tracker :=
  _ <~ w_mid_price w m ;; ret (tracker_update t m).

(** Timestamps are [i64]. *)
Definition w_should_trigger (t : trigger) (ts : Z) : checked (trigger * bool) :=
  if tg_init t then ret (should_trigger t ts)
  else _ <~ chk 64 (tg_last t + tg_interval t) ;; ret (should_trigger t ts).

(** ** Exchange *)
Definition w_exchange_new (w : Z) (c : config) (t : tracker) : checked exchange :=
  acc <~ w_accounting_new w (c_dbg c) (c_start c) ;;
  interval <~ chk 64 (c_sample_s c * 1000000000) ;;
  ret {| ex_ms := market_state_default; ex_trk := t; ex_next_id := 0; ex_acc := acc;
         ex_pos := Neutral; ex_active := []; ex_om := [];
         ex_trig := trigger_new interval; ex_updates := [] |}.

Definition w_balances (w : Z) (e : exchange) : checked user_balances :=
  a <~ w_margin_balance_of w (ex_acc e) WALLET ;;
  b <~ w_margin_balance_of w (ex_acc e) POSITION_MARGIN ;;
  m <~ w_margin_balance_of w (ex_acc e) ORDER_MARGIN ;;
  ret {| ub_wallet := a; ub_pm := b; ub_om := m |}.
Definition w_balances_sum (w : Z) (b : user_balances) : checked Z :=
  x <~ cadd w (ub_wallet b) (ub_pm b) ;; cadd w x (ub_om b).

Definition w_assert_user_wallet_balance (w : Z) (acc : accounts) : checked unit :=
  wallet <~ w_margin_balance_of w acc WALLET ;; Fine (assert (0 <=? wallet) PWalletNegative).

Definition w_computed_order_margin (w : Z) (c : config) (e : exchange) : checked Z :=
  w_order_margin w c (ex_om e) (ex_pos e).

(** An empty book goes with an empty order margin account. *)
Definition w_empty_margin (w : Z) (e : exchange) : checked bool :=
  match ex_active e with
  | [] => m <~ w_margin_balance_of w (ex_acc e) ORDER_MARGIN ;; ret (m =? 0)
  | _ => ret true
  end.

Definition w_settle_filled_market_order (w : Z) (c : config) (e : exchange) (o : filled_market)
  : checked exchange :=
  let s := c_scale c in
  let qty := fm_qty o in
  let price := fm_avg o in
  _ <~ Fine (assert (0 <? qty) PSettleQty) ;;
  _ <~ Fine (assert (0 <? price) PSettlePrice) ;;
  value <~ w_convert_from w (c_kind c) s qty price ;;
  fees <~ cmul w s value (ct_taker (c_spec c)) ;;
  '(pos, acc) <~ w_change_position w c (ex_pos e) (ex_acc e) qty price (fm_side o) fees ;;
  t1 <~ w_log_market_order_fill w (ex_trk e) ;;
  t2 <~ w_log_trade w c t1 (fm_side o) price qty ;;
  ret (set_trk (set_acc (set_pos e pos) acc) t2).

Definition w_submit_market_order (w : Z) (c : config) (e : exchange) (o : new_market)
  : checked (exchange * result error filled_market) :=
  t1 <~ w_log_market_order_submission w (ex_trk e) ;;
  let e1 := set_trk e t1 in
  v <~ w_validate_order_quantity w (ct_qf (c_spec c)) (nm_qty o) ;;
  match v with
  | Err err => ret (e1, Err (EOrder err))
  | Ok _ =>
      let id := ex_next_id e1 in
      next <~ count (ex_next_id e1 + 1) ;;
      let e2 := set_next_id e1 next in
      let ts := ms_ts (ex_ms e2) in
      let fill_price := match nm_side o with Buy => ms_ask (ex_ms e2) | Sell => ms_bid (ex_ms e2) end in
      position_margin <~ w_margin_balance_of w (ex_acc e2) POSITION_MARGIN ;;
      wallet <~ w_margin_balance_of w (ex_acc e2) WALLET ;;
      r <~ w_check_market_order w c (ex_pos e2) position_margin (nm_side o) (nm_qty o) fill_price wallet ;;
      match r with
      | Err err => ret (e2, Err (ERisk err))
      | Ok _ =>
          let filled := market_into_filled o id ts fill_price ts in
          e3 <~ w_settle_filled_market_order w c e2 filled ;;
          ret (e3, Ok filled)
      end
  end.

Definition w_liquidate (w : Z) (c : config) (e : exchange) : checked exchange :=
  order <~ Fine match ex_pos e with
                | Long i => match market_new Sell (pi_qty i) 0 with
                            | Ok o => Done o | Err _ => Panic PLiquidateOrder end
                | Short i => match market_new Buy (pi_qty i) 0 with
                             | Ok o => Done o | Err _ => Panic PLiquidateOrder end
                | Neutral => Panic PLiquidateNeutral
                end ;;
  '(e1, r) <~ w_submit_market_order w c e order ;;
  match r with
  | Ok _ => ret e1
  | Err _ => Fine (Panic PLiquidateSubmit)
  end.

Definition w_append_limit_order (w : Z) (c : config) (e : exchange) (o : limit_order)
  : checked (exchange * result error unit) :=
  '(om', r) <~ Fine (om_update (c_max c) (ex_om e) o) ;;
  let e1 := set_om e om' in
  match r with
  | Err err => ret (e1, Err err)
  | Ok _ =>
      match book_insert active_capacity (ex_active e1) o with
      | (act', Err err) => ret (set_active e1 act', Err err)
      | (act', Ok _) =>
          let e2 := set_active e1 act' in
          new_om <~ w_computed_order_margin w c e2 ;;
          old_om <~ w_margin_balance_of w (ex_acc e2) ORDER_MARGIN ;;
          match new_om ?= old_om with
          | Eq => ret (e2, Ok tt)
          | cmp =>
              amt <~ match cmp with Gt => csub w new_om old_om | _ => csub w old_om new_om end ;;
              acc <~ w_transfer w (c_dbg c) (ex_acc e2) ORDER_MARGIN WALLET amt ;;
              let e3 := set_acc e2 acc in
              _ <~ Fine (assert (orders_eqb (ex_om e3) (ex_active e3)) PAppendBooks) ;;
              b <~ w_empty_margin w e3 ;;
              _ <~ Fine (assert b PAppendEmptyMargin) ;;
              _ <~ w_assert_user_wallet_balance w (ex_acc e3) ;;
              ret (e3, Ok tt)
          end
      end
  end.

Definition w_submit_limit_order (w : Z) (c : config) (e : exchange) (o : new_limit)
  : checked (exchange * result error limit_order) :=
  t1 <~ w_log_limit_order_submission w (ex_trk e) ;;
  let e1 := set_trk e t1 in
  v <~ w_validate_order_quantity w (ct_qf (c_spec c)) (nl_rem o) ;;
  match v with
  | Err err => ret (e1, Err (EOrder err))
  | Ok _ =>
      mid <~ w_mid_price w (ex_ms e1) ;;
      p <~ w_validate_limit_price w (c_scale c) (ct_pf (c_spec c)) (nl_price o) mid ;;
      match p with
      | Err err => ret (e1, Err (EOrder err))
      | Ok _ =>
          let order := limit_into_pending o (ex_next_id e1) (ms_ts (ex_ms e1)) in
          next <~ count (ex_next_id e1 + 1) ;;
          let e2 := set_next_id e1 next in
          wallet <~ w_margin_balance_of w (ex_acc e2) WALLET ;;
          r <~ w_check_limit_order w c (ex_pos e2) order wallet (ex_om e2) ;;
          match r with
          | Err err => ret (e2, Err (ERisk err))
          | Ok _ =>
              if marketable (ex_ms e2) order
              then ret (e2, Err (EOrder GoodTillCrossingRejectedOrder))
              else
                '(e3, a) <~ w_append_limit_order w c e2 order ;;
                match a with
                | Err err => ret (e3, Err err)
                | Ok _ => ret (e3, Ok order)
                end
          end
      end
  end.

Definition w_cancel_limit_order (w : Z) (c : config) (e : exchange) (by_ : cancel_by)
  : checked (exchange * result error limit_order) :=
  old_om <~ w_margin_balance_of w (ex_acc e) ORDER_MARGIN ;;
  comp <~ w_computed_order_margin w c e ;;
  _ <~ Fine (assert (old_om =? comp) PCancelMargin) ;;
  match by_, (match by_ with
              | ByOrderId id => remove_by_order_id (ex_active e) id
              | ByUserOrderId uid => remove_by_user_order_id (ex_active e) uid
              end) with
  | ByOrderId id, None =>
      ret (e, Err (if id <? ex_next_id e then EOrderNoLongerActive else EOrderIdNotFound id))
  | ByUserOrderId _, None => ret (e, Err EUserOrderIdNotFound)
  | _, Some (removed, act') =>
      let e1 := set_active e act' in
      om' <~ Fine (om_remove (ex_om e1) by_) ;;
      let e2 := set_om e1 om' in
      new_om <~ w_computed_order_margin w c e2 ;;
      _ <~ Fine (assert (new_om <=? old_om) PCancelMarginGrows) ;;
      e3 <~ (if new_om <? old_om then
               delta <~ csub w old_om new_om ;;
               acc <~ w_transfer w (c_dbg c) (ex_acc e2) WALLET ORDER_MARGIN delta ;;
               ret (set_acc e2 acc)
             else ret e2) ;;
      t <~ w_log_limit_order_cancellation w (ex_trk e3) ;;
      let e4 := set_trk e3 t in
      _ <~ Fine (assert (orders_eqb (ex_om e4) (ex_active e4)) PCancelBooks) ;;
      b <~ w_empty_margin w e4 ;;
      _ <~ Fine (assert b PCancelEmptyMargin) ;;
      ret (e4, Ok removed)
  end.

Definition w_amend_limit_order (w : Z) (c : config) (e : exchange) (id : Z) (new_order : new_limit)
  : checked (exchange * result error limit_order) :=
  match get_by_id (ex_active e) id with
  | None => ret (e, Err (if id <? ex_next_id e then EOrderNoLongerActive else EOrderIdNotFound id))
  | Some existing =>
      total <~ w_lo_total_quantity w existing ;;
      qty_delta <~ csub w (nl_rem new_order) total ;;
      new_leaves <~ cadd w (lo_rem existing) qty_delta ;;
      if new_leaves <=? 0 then
        '(e1, r) <~ w_cancel_limit_order w c e (ByOrderId id) ;;
        match r with
        | Ok _ => ret (e1, Err EAmendQtyAlreadyFilled)
        | Err _ => Fine (Panic PAmendCancel)
        end
      else
        new_order' <~ Fine (set_remaining_quantity new_order new_leaves) ;;
        '(e1, r) <~ w_cancel_limit_order w c e (ByOrderId id) ;;
        match r with
        | Err err => ret (e1, Err err)
        | Ok _ => w_submit_limit_order w c e1 new_order'
        end
  end.

Definition w_fill_one (w : Z) (c : config) (u : market_update) (e : exchange) (ids : list Z) (o : limit_order)
  : checked (exchange * list Z * limit_order) :=
  let s := c_scale c in
  let dbg := c_dbg c in
  f <~ Fine (limit_order_filled dbg u o) ;;
  match f with
  | None => ret (e, ids, o)
  | Some q =>
      _ <~ Fine (debug_assert dbg (0 <? q) PFilledQtyDebug) ;;
      old_om <~ w_margin_balance_of w (ex_acc e) ORDER_MARGIN ;;
      _ <~ cdebug_assert_m dbg (comp <~ w_computed_order_margin w c e ;; ret (old_om =? comp)) PFillMarginDebug ;;
      '(o', filled) <~ w_order_fill w s o q (update_ts u) ;;
      '(e1, ids1) <~ match filled with
                     | Some fo =>
                         t1 <~ w_log_limit_order_fill w (ex_trk e) true ;;
                         om' <~ Fine (om_remove (ex_om e) (ByOrderId (lo_id o'))) ;;
                         ret (set_updates (set_om (set_trk e t1) om') (ex_updates e ++ [FullyFilled fo]),
                              ids ++ [lo_id o'])
                     | None =>
                         _ <~ Fine (debug_assert dbg (0 <? lo_rem o') PFillRemDebug) ;;
                         t1 <~ w_log_limit_order_fill w (ex_trk e) false ;;
                         '(om', r) <~ Fine (om_update (c_max c) (ex_om e) o') ;;
                         match r with
                         | Err _ => Fine (Panic PFillUpdate)
                         | Ok _ =>
                             ret (set_updates (set_om (set_trk e t1) om')
                                     (ex_updates e ++ [PartiallyFilled o']), ids)
                         end
                     end ;;
      value <~ w_convert_from w (c_kind c) s q (lo_price o') ;;
      fees <~ cmul w s value (ct_maker (c_spec c)) ;;
      '(pos, acc) <~ w_change_position w c (ex_pos e1) (ex_acc e1) q (lo_price o') (lo_side o') fees ;;
      let e2 := set_acc (set_pos e1 pos) acc in
      t2 <~ w_log_trade w c (ex_trk e2) (lo_side o') (lo_price o') q ;;
      let e3 := set_trk e2 t2 in
      new_om <~ w_computed_order_margin w c e3 ;;
      _ <~ Fine (debug_assert dbg (new_om <=? old_om) PFillMarginGrowsDebug) ;;
      e4 <~ (if new_om <? old_om then
               delta <~ csub w old_om new_om ;;
               acc' <~ w_transfer w dbg (ex_acc e3) WALLET ORDER_MARGIN delta ;;
               ret (set_acc e3 acc')
             else ret e3) ;;
      ret (e4, ids1, o')
  end.

Fixpoint w_fill_loop (w : Z) (c : config) (u : market_update) (e : exchange) (ids : list Z)
  (todo : list limit_order) : checked (exchange * list Z * list limit_order) :=
  match todo with
  | [] => ret (e, ids, [])
  | o :: rest =>
      '(e1, ids1, o') <~ w_fill_one w c u e ids o ;;
      '(e2, ids2, rest') <~ w_fill_loop w c u e1 ids1 rest ;;
      ret (e2, ids2, o' :: rest')
  end.

Definition w_check_active_orders (w : Z) (c : config) (e : exchange) (u : market_update) : checked exchange :=
  let dbg := c_dbg c in
  let e0 := set_updates e [] in
  if negb (can_fill u) then ret e0
  else
    _ <~ Fine (debug_assert dbg (orders_eqb (ex_om e0) (ex_active e0)) PBooksDebug) ;;
    '(e1, ids, arena) <~ w_fill_loop w c u e0 [] (ex_active e0) ;;
    act <~ Fine (remove_executed ids arena) ;;
    let e2 := set_active e1 act in
    _ <~ Fine (debug_assert dbg (orders_eqb (ex_om e2) (ex_active e2)) PBooksDebug) ;;
    _ <~ cdebug_assert_m dbg (w_empty_margin w e2) PEmptyMarginDebug ;;
    _ <~ cdebug_assert_m dbg (m <~ w_margin_balance_of w (ex_acc e2) ORDER_MARGIN ;;
                              comp <~ w_computed_order_margin w c e2 ;; ret (m =? comp)) PEndMarginDebug ;;
    _ <~ w_assert_user_wallet_balance w (ex_acc e2) ;;
    ret e2.

Definition w_update_state (w : Z) (c : config) (e : exchange) (u : market_update)
  : checked (exchange * result error (list order_update)) :=
  ms <~ w_market_update_state w (c_dbg c) (ct_pf (c_spec c)) u (ex_ms e) ;;
  let e1 := set_ms e ms in
  t <~ w_tracker_update w (ex_trk e1) (ex_ms e1) ;;
  let e2 := set_trk e1 t in
  '(trig, fire) <~ w_should_trigger (ex_trig e2) (update_ts u) ;;
  let e3 := set_trig e2 trig in
  e4 <~ (if fire : bool then
           b <~ w_balances w e3 ;;
           _ <~ w_mid_price w (ex_ms e3) ;;
           sum <~ w_balances_sum w b ;;
           ret (set_trk e3 (tracker_sample (ex_trk e3) sum))
         else ret e3) ;;
  m <~ w_check_maintenance_margin w c (ms_bid (ex_ms e4)) (ms_ask (ex_ms e4)) (ex_pos e4) ;;
  match m with
  | Err err =>
      e5 <~ w_liquidate w c e4 ;;
      ret (e5, Err (ERisk err))
  | Ok _ =>
      e5 <~ w_check_active_orders w c e4 u ;;
      ret (e5, Ok (ex_updates e5))
  end.

Definition w_map_out {S E A B} (f : A -> B) (m : checked (S * result E A)) : checked (S * result E B) :=
  '(s, r) <~ m ;; ret (s, map_result f r).

Definition w_step (w : Z) (c : config) (e : exchange) (o : op) : checked (exchange * result error out) :=
  match o with
  | OpUpdate r =>
      u <~ w_build_update w (c_dbg c) r ;;
      w_map_out OutUpdates (w_update_state w c e u)
  | OpMarket sd qty uid =>
      match market_new sd qty uid with
      | Err err => ret (e, Err (EOrder err))
      | Ok m => w_map_out OutMarket (w_submit_market_order w c e m)
      end
  | OpLimit sd price qty uid =>
      match limit_new sd price qty uid with
      | Err err => ret (e, Err (EOrder err))
      | Ok l => w_map_out OutLimit (w_submit_limit_order w c e l)
      end
  | OpCancel by_ => w_map_out OutLimit (w_cancel_limit_order w c e by_)
  | OpAmend id sd price qty uid =>
      match limit_new sd price qty uid with
      | Err err => ret (e, Err (EOrder err))
      | Ok l => w_map_out OutLimit (w_amend_limit_order w c e id l)
      end
  | OpCheck r =>
      u <~ w_build_update w (c_dbg c) r ;;
      e1 <~ w_check_active_orders w c e u ;;
      ret (e1, Ok OutUnit)
  end.

Fixpoint w_run (w : Z) (c : config) (e : exchange) (ops : list op)
  : checked (exchange * list (result error out)) :=
  match ops with
  | [] => ret (e, [])
  | o :: rest =>
      '(e1, r) <~ w_step w c e o ;;
      '(e2, rs) <~ w_run w c e1 rest ;;
      ret (e2, r :: rs)
  end.

Definition w_init (w : Z) (c : config) : checked exchange :=
  t <~ Fine (tracker_new (c_start c)) ;;
  w_exchange_new w c t.
