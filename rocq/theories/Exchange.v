(** The exchange: state, public operations, histories. *)
From Verif Require Import Base Types Filters Accounting Currency Position OrderBook OrderMargin
  Risk MarketUpdate Tracker.

(** src/exchange.rs:64-107.  [ids_to_remove] is empty between calls and becomes a local of
    [check_active_orders]; [risk_engine] only holds the contract specification. *)
Record exchange := {
  ex_ms : market_state;
  ex_trk : tracker;
  ex_next_id : Z;
  ex_acc : accounts;
  ex_pos : position;
  ex_active : list limit_order;     (* active_limit_orders *)
  ex_om : list limit_order;         (* order_margin.active_limit_orders *)
  ex_trig : trigger;
  ex_updates : list order_update    (* limit_order_updates *)
}.

(** Field updates ([self.field = v]). *)
Definition set_ms (e : exchange) v := Build_exchange v (ex_trk e) (ex_next_id e) (ex_acc e) (ex_pos e)
  (ex_active e) (ex_om e) (ex_trig e) (ex_updates e).
Definition set_trk (e : exchange) v := Build_exchange (ex_ms e) v (ex_next_id e) (ex_acc e) (ex_pos e)
  (ex_active e) (ex_om e) (ex_trig e) (ex_updates e).
Definition set_next_id (e : exchange) v := Build_exchange (ex_ms e) (ex_trk e) v (ex_acc e) (ex_pos e)
  (ex_active e) (ex_om e) (ex_trig e) (ex_updates e).
Definition set_acc (e : exchange) v := Build_exchange (ex_ms e) (ex_trk e) (ex_next_id e) v (ex_pos e)
  (ex_active e) (ex_om e) (ex_trig e) (ex_updates e).
Definition set_pos (e : exchange) v := Build_exchange (ex_ms e) (ex_trk e) (ex_next_id e) (ex_acc e) v
  (ex_active e) (ex_om e) (ex_trig e) (ex_updates e).
Definition set_active (e : exchange) v := Build_exchange (ex_ms e) (ex_trk e) (ex_next_id e) (ex_acc e)
  (ex_pos e) v (ex_om e) (ex_trig e) (ex_updates e).
Definition set_om (e : exchange) v := Build_exchange (ex_ms e) (ex_trk e) (ex_next_id e) (ex_acc e)
  (ex_pos e) (ex_active e) v (ex_trig e) (ex_updates e).
Definition set_trig (e : exchange) v := Build_exchange (ex_ms e) (ex_trk e) (ex_next_id e) (ex_acc e)
  (ex_pos e) (ex_active e) (ex_om e) v (ex_updates e).
Definition set_updates (e : exchange) v := Build_exchange (ex_ms e) (ex_trk e) (ex_next_id e) (ex_acc e)
  (ex_pos e) (ex_active e) (ex_om e) (ex_trig e) v.

(** src/exchange.rs:140: [ActiveLimitOrders::new(10_000)]. *)
Definition active_capacity : Z := 10000.

(** src/exchange.rs:122-146, [Exchange::new]. *)
Definition exchange_new (c : config) (t : tracker) : outcome exchange :=
  acc <- accounting_new (c_dbg c) (c_start c) ;;
  Done {| ex_ms := market_state_default; ex_trk := t; ex_next_id := 0; ex_acc := acc;
          ex_pos := Neutral; ex_active := []; ex_om := [];
          ex_trig := trigger_new (c_sample_s c * 1000000000); ex_updates := [] |}.

(** src/exchange.rs:159-163, [fees_paid]. *)
Definition fees_paid (e : exchange) : Z := margin_balance_of (ex_acc e) FEE.

(** src/exchange.rs:694-710, [user_balances], and src/types/mod.rs:69-71, [sum]. *)
Record user_balances := { ub_wallet : Z; ub_pm : Z; ub_om : Z }.
Definition balances (e : exchange) : user_balances :=
  {| ub_wallet := margin_balance_of (ex_acc e) WALLET;
     ub_pm := margin_balance_of (ex_acc e) POSITION_MARGIN;
     ub_om := margin_balance_of (ex_acc e) ORDER_MARGIN |}.
Definition balances_sum (b : user_balances) : Z := ub_wallet b + ub_pm b + ub_om b.

(** src/utils.rs:44-55 *)
Definition assert_user_wallet_balance (acc : accounts) : outcome unit :=
  assert (0 <=? margin_balance_of acc WALLET) PWalletNegative.

(** The margin requirement of the tracked book in the current state. *)
Definition computed_order_margin (c : config) (e : exchange) : outcome Z :=
  order_margin c (ex_om e) (ex_pos e).

(** src/exchange.rs:279-302, [settle_filled_market_order]. *)
Definition settle_filled_market_order (c : config) (e : exchange) (o : filled_market)
  : outcome exchange :=
  let s := c_scale c in
  let qty := fm_qty o in
  let price := fm_avg o in
  _ <- assert (0 <? qty) PSettleQty ;;
  _ <- assert (0 <? price) PSettlePrice ;;
  value <- convert_from (c_kind c) s qty price ;;
  let fees := dmul s value (ct_taker (c_spec c)) in
  '(pos, acc) <- change_position c (ex_pos e) (ex_acc e) qty price (fm_side o) fees ;;
  let t1 := log_market_order_fill (ex_trk e) in
  t2 <- log_trade c t1 (fm_side o) price qty ;;
  Done (set_trk (set_acc (set_pos e pos) acc) t2).

(** src/types/market_order.rs:113-124 and 135-153, [into_pending] followed by [into_filled]. *)
Definition market_into_filled (o : new_market) (id ts price exec_ts : Z) : filled_market :=
  {| fm_uid := nm_uid o; fm_side := nm_side o; fm_qty := nm_qty o; fm_id := id; fm_ts := ts;
     fm_exec_ts := exec_ts; fm_avg := price; fm_filled := nm_qty o |}.

(** src/exchange.rs:237-277, [submit_market_order]. *)
Definition submit_market_order (c : config) (e : exchange) (o : new_market)
  : outcome (exchange * result error filled_market) :=
  let e1 := set_trk e (log_market_order_submission (ex_trk e)) in
  v <- validate_order_quantity (ct_qf (c_spec c)) (nm_qty o) ;;
  match v with
  | Err err => Done (e1, Err (EOrder err))
  | Ok _ =>
      let id := ex_next_id e1 in
      let e2 := set_next_id e1 (ex_next_id e1 + 1) in
      let ts := ms_ts (ex_ms e2) in
      let fill_price := match nm_side o with Buy => ms_ask (ex_ms e2) | Sell => ms_bid (ex_ms e2) end in
      let position_margin := margin_balance_of (ex_acc e2) POSITION_MARGIN in
      let wallet := margin_balance_of (ex_acc e2) WALLET in
      r <- check_market_order c (ex_pos e2) position_margin (nm_side o) (nm_qty o) fill_price wallet ;;
      match r with
      | Err err => Done (e2, Err (ERisk err))
      | Ok _ =>
          let filled := market_into_filled o id ts fill_price ts in
          e3 <- settle_filled_market_order c e2 filled ;;
          Done (e3, Ok filled)
      end
  end.

(** src/exchange.rs:213-227, [liquidate]; the market order is built with the default user order id. *)
Definition liquidate (c : config) (e : exchange) : outcome exchange :=
  order <- match ex_pos e with
           | Long i => match market_new Sell (pi_qty i) 0 with
                       | Ok o => Done o | Err _ => Panic PLiquidateOrder end
           | Short i => match market_new Buy (pi_qty i) 0 with
                        | Ok o => Done o | Err _ => Panic PLiquidateOrder end
           | Neutral => Panic PLiquidateNeutral
           end ;;
  '(e1, r) <- submit_market_order c e order ;;
  match r with
  | Ok _ => Done e1
  | Err _ => Panic PLiquidateSubmit
  end.

(** src/exchange.rs:426-480, [append_limit_order]. *)
Definition append_limit_order (c : config) (e : exchange) (o : limit_order)
  : outcome (exchange * result error unit) :=
  '(om', r) <- om_update (c_max c) (ex_om e) o ;;
  let e1 := set_om e om' in
  match r with
  | Err err => Done (e1, Err err)
  | Ok _ =>
      match book_insert active_capacity (ex_active e1) o with
      | (act', Err err) => Done (set_active e1 act', Err err)
      | (act', Ok _) =>
          let e2 := set_active e1 act' in
          new_om <- computed_order_margin c e2 ;;
          let old_om := margin_balance_of (ex_acc e2) ORDER_MARGIN in
          match new_om ?= old_om with
          | Eq => Done (e2, Ok tt)
          | cmp =>
              let amt := match cmp with Gt => new_om - old_om | _ => old_om - new_om end in
              acc <- transfer (c_dbg c) (ex_acc e2) ORDER_MARGIN WALLET amt ;;
              let e3 := set_acc e2 acc in
              _ <- assert (orders_eqb (ex_om e3) (ex_active e3)) PAppendBooks ;;
              _ <- assert (match ex_active e3 with
                           | [] => margin_balance_of (ex_acc e3) ORDER_MARGIN =? 0
                           | _ => true end) PAppendEmptyMargin ;;
              _ <- assert_user_wallet_balance (ex_acc e3) ;;
              Done (e3, Ok tt)
          end
      end
  end.

(** src/exchange.rs:351-354 *)
Definition marketable (m : market_state) (o : limit_order) : bool :=
  match lo_side o with
  | Buy => ms_ask m <=? lo_price o
  | Sell => lo_price o <=? ms_bid m
  end.

(** src/exchange.rs:317-374, [submit_limit_order]. *)
Definition submit_limit_order (c : config) (e : exchange) (o : new_limit)
  : outcome (exchange * result error limit_order) :=
  let e1 := set_trk e (log_limit_order_submission (ex_trk e)) in
  v <- validate_order_quantity (ct_qf (c_spec c)) (nl_rem o) ;;
  match v with
  | Err err => Done (e1, Err (EOrder err))
  | Ok _ =>
      p <- validate_limit_price (c_scale c) (ct_pf (c_spec c)) (nl_price o) (mid_price (ex_ms e1)) ;;
      match p with
      | Err err => Done (e1, Err (EOrder err))
      | Ok _ =>
          let order := limit_into_pending o (ex_next_id e1) (ms_ts (ex_ms e1)) in
          let e2 := set_next_id e1 (ex_next_id e1 + 1) in
          let wallet := margin_balance_of (ex_acc e2) WALLET in
          r <- check_limit_order c (ex_pos e2) order wallet (ex_om e2) ;;
          match r with
          | Err err => Done (e2, Err (ERisk err))
          | Ok _ =>
              if marketable (ex_ms e2) order
              then Done (e2, Err (EOrder GoodTillCrossingRejectedOrder))
              else
                '(e3, a) <- append_limit_order c e2 order ;;
                match a with
                | Err err => Done (e3, Err err)
                | Ok _ => Done (e3, Ok order)
                end
          end
      end
  end.

(** src/exchange.rs:484-549, [cancel_limit_order]. *)
Definition cancel_limit_order (c : config) (e : exchange) (by_ : cancel_by)
  : outcome (exchange * result error limit_order) :=
  let old_om := margin_balance_of (ex_acc e) ORDER_MARGIN in
  comp <- computed_order_margin c e ;;
  _ <- assert (old_om =? comp) PCancelMargin ;;
  match by_, (match by_ with
              | ByOrderId id => remove_by_order_id (ex_active e) id
              | ByUserOrderId uid => remove_by_user_order_id (ex_active e) uid
              end) with
  | ByOrderId id, None =>
      Done (e, Err (if id <? ex_next_id e then EOrderNoLongerActive else EOrderIdNotFound id))
  | ByUserOrderId _, None => Done (e, Err EUserOrderIdNotFound)
  | _, Some (removed, act') =>
      let e1 := set_active e act' in
      om' <- om_remove (ex_om e1) by_ ;;
      let e2 := set_om e1 om' in
      new_om <- computed_order_margin c e2 ;;
      _ <- assert (new_om <=? old_om) PCancelMarginGrows ;;
      e3 <- (if new_om <? old_om then
               acc <- transfer (c_dbg c) (ex_acc e2) WALLET ORDER_MARGIN (old_om - new_om) ;;
               Done (set_acc e2 acc)
             else Done e2) ;;
      let e4 := set_trk e3 (log_limit_order_cancellation (ex_trk e3)) in
      _ <- assert (orders_eqb (ex_om e4) (ex_active e4)) PCancelBooks ;;
      _ <- assert (match ex_active e4 with
                   | [] => margin_balance_of (ex_acc e4) ORDER_MARGIN =? 0
                   | _ => true end) PCancelEmptyMargin ;;
      Done (e4, Ok removed)
  end.

(** src/exchange.rs:382-420, [amend_limit_order]. *)
Definition amend_limit_order (c : config) (e : exchange) (id : Z) (new_order : new_limit)
  : outcome (exchange * result error limit_order) :=
  match get_by_id (ex_active e) id with
  | None => Done (e, Err (if id <? ex_next_id e then EOrderNoLongerActive else EOrderIdNotFound id))
  | Some existing =>
      total <- lo_total_quantity existing ;;
      let qty_delta := nl_rem new_order - total in
      let new_leaves := lo_rem existing + qty_delta in
      if new_leaves <=? 0 then
        '(e1, r) <- cancel_limit_order c e (ByOrderId id) ;;
        match r with
        | Ok _ => Done (e1, Err EAmendQtyAlreadyFilled)
        | Err _ => Panic PAmendCancel
        end
      else
        new_order' <- set_remaining_quantity new_order new_leaves ;;
        '(e1, r) <- cancel_limit_order c e (ByOrderId id) ;;
        match r with
        | Err err => Done (e1, Err err)
        | Ok _ => submit_limit_order c e1 new_order'
        end
  end.

(** The body of the loop in src/exchange.rs:582-658 for one order of the arena.
    Returns the exchange without the arena change, the ids to remove and the order as left in the arena. *)
Definition fill_one (c : config) (u : market_update) (e : exchange) (ids : list Z) (o : limit_order)
  : outcome (exchange * list Z * limit_order) :=
  let s := c_scale c in
  let dbg := c_dbg c in
  f <- limit_order_filled dbg u o ;;
  match f with
  | None => Done (e, ids, o)
  | Some q =>
      _ <- debug_assert dbg (0 <? q) PFilledQtyDebug ;;
      let old_om := margin_balance_of (ex_acc e) ORDER_MARGIN in
      _ <- debug_assert_m dbg (comp <- computed_order_margin c e ;; Done (old_om =? comp)) PFillMarginDebug ;;
      '(o', filled) <- order_fill s o q (update_ts u) ;;
      '(e1, ids1) <- match filled with
                     | Some fo =>
                         let t1 := log_limit_order_fill (ex_trk e) true in
                         om' <- om_remove (ex_om e) (ByOrderId (lo_id o')) ;;
                         Done (set_updates (set_om (set_trk e t1) om') (ex_updates e ++ [FullyFilled fo]),
                               ids ++ [lo_id o'])
                     | None =>
                         _ <- debug_assert dbg (0 <? lo_rem o') PFillRemDebug ;;
                         let t1 := log_limit_order_fill (ex_trk e) false in
                         '(om', r) <- om_update (c_max c) (ex_om e) o' ;;
                         match r with
                         | Err _ => Panic PFillUpdate
                         | Ok _ =>
                             Done (set_updates (set_om (set_trk e t1) om')
                                     (ex_updates e ++ [PartiallyFilled o']), ids)
                         end
                     end ;;
      value <- convert_from (c_kind c) s q (lo_price o') ;;
      let fees := dmul s value (ct_maker (c_spec c)) in
      '(pos, acc) <- change_position c (ex_pos e1) (ex_acc e1) q (lo_price o') (lo_side o') fees ;;
      let e2 := set_acc (set_pos e1 pos) acc in
      t2 <- log_trade c (ex_trk e2) (lo_side o') (lo_price o') q ;;
      let e3 := set_trk e2 t2 in
      new_om <- computed_order_margin c e3 ;;
      _ <- debug_assert dbg (new_om <=? old_om) PFillMarginGrowsDebug ;;
      e4 <- (if new_om <? old_om then
               acc' <- transfer dbg (ex_acc e3) WALLET ORDER_MARGIN (old_om - new_om) ;;
               Done (set_acc e3 acc')
             else Done e3) ;;
      Done (e4, ids1, o')
  end.

(** The loop src/exchange.rs:582-658 over the arena. *)
Fixpoint fill_loop (c : config) (u : market_update) (e : exchange) (ids : list Z)
  (todo : list limit_order) : outcome (exchange * list Z * list limit_order) :=
  match todo with
  | [] => Done (e, ids, [])
  | o :: rest =>
      '(e1, ids1, o') <- fill_one c u e ids o ;;
      '(e2, ids2, rest') <- fill_loop c u e1 ids1 rest ;;
      Done (e2, ids2, o' :: rest')
  end.

(** src/exchange.rs:659-661 with [remove_executed_order_from_active] (554-562). *)
Fixpoint remove_executed (ids : list Z) (book : list limit_order) : outcome (list limit_order) :=
  match ids with
  | [] => Done book
  | id :: rest =>
      match remove_by_order_id book id with
      | None => Panic PRemoveExecuted
      | Some (_, book') => remove_executed rest book'
      end
  end.

(** src/exchange.rs:566-690, [check_active_orders].
    The assertion on the capacity of [ids_to_remove] (663-666) is left to Clone.v; it can only fail on a copy. *)
Definition check_active_orders (c : config) (e : exchange) (u : market_update) : outcome exchange :=
  let dbg := c_dbg c in
  let e0 := set_updates e [] in
  if negb (can_fill u) then Done e0
  else
    _ <- debug_assert dbg (orders_eqb (ex_om e0) (ex_active e0)) PBooksDebug ;;
    '(e1, ids, arena) <- fill_loop c u e0 [] (ex_active e0) ;;
    act <- remove_executed ids arena ;;
    let e2 := set_active e1 act in
    _ <- debug_assert dbg (orders_eqb (ex_om e2) (ex_active e2)) PBooksDebug ;;
    _ <- debug_assert dbg (match ex_active e2 with
                           | [] => margin_balance_of (ex_acc e2) ORDER_MARGIN =? 0
                           | _ => true end) PEmptyMarginDebug ;;
    _ <- debug_assert_m dbg (comp <- computed_order_margin c e2 ;;
                             Done (margin_balance_of (ex_acc e2) ORDER_MARGIN =? comp)) PEndMarginDebug ;;
    _ <- assert_user_wallet_balance (ex_acc e2) ;;
    Done e2.

(** src/exchange.rs:175-210, [update_state]. *)
Definition update_state (c : config) (e : exchange) (u : market_update)
  : outcome (exchange * result error (list order_update)) :=
  ms <- market_update_state (c_dbg c) (ct_pf (c_spec c)) u (ex_ms e) ;;
  let e1 := set_ms e ms in
  let e2 := set_trk e1 (tracker_update (ex_trk e1) (ex_ms e1)) in
  let '(trig, fire) := should_trigger (ex_trig e2) (update_ts u) in
  let e3 := set_trig e2 trig in
  let e4 := if fire then set_trk e3 (tracker_sample (ex_trk e3) (balances_sum (balances e3))) else e3 in
  match check_maintenance_margin c (ms_bid (ex_ms e4)) (ms_ask (ex_ms e4)) (ex_pos e4) with
  | Err err =>
      e5 <- liquidate c e4 ;;
      Done (e5, Err (ERisk err))
  | Ok _ =>
      e5 <- check_active_orders c e4 u ;;
      Done (e5, Ok (ex_updates e5))
  end.

(** ** Operations of a user of the exchange. *)
Inductive op :=
| OpUpdate (r : raw_update)
| OpMarket (sd : side) (qty uid : Z)
| OpLimit (sd : side) (price qty uid : Z)
| OpCancel (by_ : cancel_by)
| OpAmend (id : Z) (sd : side) (price qty uid : Z)
| OpCheck (r : raw_update).        (* the public [check_active_orders] *)

Inductive out :=
| OutUpdates (l : list order_update)
| OutMarket (o : filled_market)
| OutLimit (o : limit_order)
| OutUnit.

Definition map_result {E A B} (f : A -> B) (r : result E A) : result E B :=
  match r with Ok a => Ok (f a) | Err e => Err e end.

Definition map_out {S E A B} (f : A -> B) (m : outcome (S * result E A)) : outcome (S * result E B) :=
  '(s, r) <- m ;; Done (s, map_result f r).

(** One call of the public API.  Orders and updates are first built by their constructors; if an
    order constructor fails its error is the outcome of the call. *)
Definition step (c : config) (e : exchange) (o : op) : outcome (exchange * result error out) :=
  match o with
  | OpUpdate r =>
      u <- build_update (c_dbg c) r ;;
      map_out OutUpdates (update_state c e u)
  | OpMarket sd qty uid =>
      match market_new sd qty uid with
      | Err err => Done (e, Err (EOrder err))
      | Ok m => map_out OutMarket (submit_market_order c e m)
      end
  | OpLimit sd price qty uid =>
      match limit_new sd price qty uid with
      | Err err => Done (e, Err (EOrder err))
      | Ok l => map_out OutLimit (submit_limit_order c e l)
      end
  | OpCancel by_ => map_out OutLimit (cancel_limit_order c e by_)
  | OpAmend id sd price qty uid =>
      match limit_new sd price qty uid with
      | Err err => Done (e, Err (EOrder err))
      | Ok l => map_out OutLimit (amend_limit_order c e id l)
      end
  | OpCheck r =>
      u <- build_update (c_dbg c) r ;;
      e1 <- check_active_orders c e u ;;
      Done (e1, Ok OutUnit)
  end.

(** Histories: a panic ends the history. *)
Fixpoint run (c : config) (e : exchange) (ops : list op) : outcome (exchange * list (result error out)) :=
  match ops with
  | [] => Done (e, [])
  | o :: rest =>
      '(e1, r) <- step c e o ;;
      '(e2, rs) <- run c e1 rest ;;
      Done (e2, r :: rs)
  end.

(** A fresh exchange with a [FullAccountTracker] for the configured balance. *)
Definition init (c : config) : outcome exchange :=
  t <- tracker_new (c_start c) ;;
  exchange_new c t.
