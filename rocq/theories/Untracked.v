(** The exchange with a [NoAccountTracker].
    [Exchange] is generic in its tracker; this is the same code with every call of a tracker hook replaced by the empty
    body of src/account_tracker/no_track.rs:21-66. *)
From Verif Require Import Base Types Filters Accounting Currency Position OrderBook OrderMargin
  Risk MarketUpdate Tracker Exchange.

(** src/exchange.rs:64-107.  [ids_to_remove] is empty between calls and becomes a local of
    [check_active_orders]; [risk_engine] only holds the contract specification. *)
Record quiet := {
  qx_ms : market_state;
  qx_next_id : Z;
  qx_acc : accounts;
  qx_pos : position;
  qx_active : list limit_order;     (* active_limit_orders *)
  qx_om : list limit_order;         (* order_margin.active_limit_orders *)
  qx_trig : trigger;
  qx_updates : list order_update    (* limit_order_updates *)
}.

(** Field updates ([self.field = v]). *)
Definition put_ms (e : quiet) v := Build_quiet v (qx_next_id e) (qx_acc e) (qx_pos e)
  (qx_active e) (qx_om e) (qx_trig e) (qx_updates e).
Definition put_next_id (e : quiet) v := Build_quiet (qx_ms e) v (qx_acc e) (qx_pos e)
  (qx_active e) (qx_om e) (qx_trig e) (qx_updates e).
Definition put_acc (e : quiet) v := Build_quiet (qx_ms e) (qx_next_id e) v (qx_pos e)
  (qx_active e) (qx_om e) (qx_trig e) (qx_updates e).
Definition put_pos (e : quiet) v := Build_quiet (qx_ms e) (qx_next_id e) (qx_acc e) v
  (qx_active e) (qx_om e) (qx_trig e) (qx_updates e).
Definition put_active (e : quiet) v := Build_quiet (qx_ms e) (qx_next_id e) (qx_acc e)
  (qx_pos e) v (qx_om e) (qx_trig e) (qx_updates e).
Definition put_om (e : quiet) v := Build_quiet (qx_ms e) (qx_next_id e) (qx_acc e)
  (qx_pos e) (qx_active e) v (qx_trig e) (qx_updates e).
Definition put_trig (e : quiet) v := Build_quiet (qx_ms e) (qx_next_id e) (qx_acc e)
  (qx_pos e) (qx_active e) (qx_om e) v (qx_updates e).
Definition put_updates (e : quiet) v := Build_quiet (qx_ms e) (qx_next_id e) (qx_acc e)
  (qx_pos e) (qx_active e) (qx_om e) (qx_trig e) v.

(** src/exchange.rs:122-146, [Exchange::new]. *)
Definition q_exchange_new (c : config) : outcome quiet :=
  acc <- accounting_new (c_dbg c) (c_start c) ;;
  Done {| qx_ms := market_state_default; qx_next_id := 0; qx_acc := acc;
          qx_pos := Neutral; qx_active := []; qx_om := [];
          qx_trig := trigger_new (c_sample_s c * 1000000000); qx_updates := [] |}.

(** src/exchange.rs:159-163, [fees_paid]. *)
Definition q_fees_paid (e : quiet) : Z := margin_balance_of (qx_acc e) FEE.

(** src/exchange.rs:694-710, [user_balances]. *)
Definition q_balances (e : quiet) : user_balances :=
  {| ub_wallet := margin_balance_of (qx_acc e) WALLET;
     ub_pm := margin_balance_of (qx_acc e) POSITION_MARGIN;
     ub_om := margin_balance_of (qx_acc e) ORDER_MARGIN |}.

(** The margin requirement of the tracked book in the current state. *)
Definition q_computed_order_margin (c : config) (e : quiet) : outcome Z :=
  order_margin c (qx_om e) (qx_pos e).

(** src/exchange.rs:279-302, [settle_filled_market_order]. *)
Definition q_settle_filled_market_order (c : config) (e : quiet) (o : filled_market)
  : outcome quiet :=
  let s := c_scale c in
  let qty := fm_qty o in
  let price := fm_avg o in
  _ <- assert (0 <? qty) PSettleQty ;;
  _ <- assert (0 <? price) PSettlePrice ;;
  value <- convert_from (c_kind c) s qty price ;;
  let fees := dmul s value (ct_taker (c_spec c)) in
  '(pos, acc) <- change_position c (qx_pos e) (qx_acc e) qty price (fm_side o) fees ;;
  Done (put_acc (put_pos e pos) acc).

(** src/exchange.rs:237-277, [submit_market_order]. *)
Definition q_submit_market_order (c : config) (e : quiet) (o : new_market)
  : outcome (quiet * result error filled_market) :=
  let e1 := e in
  v <- validate_order_quantity (ct_qf (c_spec c)) (nm_qty o) ;;
  match v with
  | Err err => Done (e1, Err (EOrder err))
  | Ok _ =>
      let id := qx_next_id e1 in
      let e2 := put_next_id e1 (qx_next_id e1 + 1) in
      let ts := ms_ts (qx_ms e2) in
      let fill_price := match nm_side o with Buy => ms_ask (qx_ms e2) | Sell => ms_bid (qx_ms e2) end in
      let position_margin := margin_balance_of (qx_acc e2) POSITION_MARGIN in
      let wallet := margin_balance_of (qx_acc e2) WALLET in
      r <- check_market_order c (qx_pos e2) position_margin (nm_side o) (nm_qty o) fill_price wallet ;;
      match r with
      | Err err => Done (e2, Err (ERisk err))
      | Ok _ =>
          let filled := market_into_filled o id ts fill_price ts in
          e3 <- q_settle_filled_market_order c e2 filled ;;
          Done (e3, Ok filled)
      end
  end.

(** src/exchange.rs:213-227, [liquidate]; the market order is built with the default user order id. *)
Definition q_liquidate (c : config) (e : quiet) : outcome quiet :=
  order <- match qx_pos e with
           | Long i => match market_new Sell (pi_qty i) 0 with
                       | Ok o => Done o | Err _ => Panic PLiquidateOrder end
           | Short i => match market_new Buy (pi_qty i) 0 with
                        | Ok o => Done o | Err _ => Panic PLiquidateOrder end
           | Neutral => Panic PLiquidateNeutral
           end ;;
  '(e1, r) <- q_submit_market_order c e order ;;
  match r with
  | Ok _ => Done e1
  | Err _ => Panic PLiquidateSubmit
  end.

(** src/exchange.rs:426-480, [append_limit_order]. *)
Definition q_append_limit_order (c : config) (e : quiet) (o : limit_order)
  : outcome (quiet * result error unit) :=
  '(om', r) <- om_update (c_max c) (qx_om e) o ;;
  let e1 := put_om e om' in
  match r with
  | Err err => Done (e1, Err err)
  | Ok _ =>
      match book_insert active_capacity (qx_active e1) o with
      | (act', Err err) => Done (put_active e1 act', Err err)
      | (act', Ok _) =>
          let e2 := put_active e1 act' in
          new_om <- q_computed_order_margin c e2 ;;
          let old_om := margin_balance_of (qx_acc e2) ORDER_MARGIN in
          match new_om ?= old_om with
          | Eq => Done (e2, Ok tt)
          | cmp =>
              let amt := match cmp with Gt => new_om - old_om | _ => old_om - new_om end in
              acc <- transfer (c_dbg c) (qx_acc e2) ORDER_MARGIN WALLET amt ;;
              let e3 := put_acc e2 acc in
              _ <- assert (orders_eqb (qx_om e3) (qx_active e3)) PAppendBooks ;;
              _ <- assert (match qx_active e3 with
                           | [] => margin_balance_of (qx_acc e3) ORDER_MARGIN =? 0
                           | _ => true end) PAppendEmptyMargin ;;
              _ <- assert_user_wallet_balance (qx_acc e3) ;;
              Done (e3, Ok tt)
          end
      end
  end.

(** src/exchange.rs:317-374, [submit_limit_order]. *)
Definition q_submit_limit_order (c : config) (e : quiet) (o : new_limit)
  : outcome (quiet * result error limit_order) :=
  let e1 := e in
  v <- validate_order_quantity (ct_qf (c_spec c)) (nl_rem o) ;;
  match v with
  | Err err => Done (e1, Err (EOrder err))
  | Ok _ =>
      p <- validate_limit_price (c_scale c) (ct_pf (c_spec c)) (nl_price o) (mid_price (qx_ms e1)) ;;
      match p with
      | Err err => Done (e1, Err (EOrder err))
      | Ok _ =>
          let order := limit_into_pending o (qx_next_id e1) (ms_ts (qx_ms e1)) in
          let e2 := put_next_id e1 (qx_next_id e1 + 1) in
          let wallet := margin_balance_of (qx_acc e2) WALLET in
          r <- check_limit_order c (qx_pos e2) order wallet (qx_om e2) ;;
          match r with
          | Err err => Done (e2, Err (ERisk err))
          | Ok _ =>
              if marketable (qx_ms e2) order
              then Done (e2, Err (EOrder GoodTillCrossingRejectedOrder))
              else
                '(e3, a) <- q_append_limit_order c e2 order ;;
                match a with
                | Err err => Done (e3, Err err)
                | Ok _ => Done (e3, Ok order)
                end
          end
      end
  end.

(** src/exchange.rs:484-549, [cancel_limit_order]. *)
Definition q_cancel_limit_order (c : config) (e : quiet) (by_ : cancel_by)
  : outcome (quiet * result error limit_order) :=
  let old_om := margin_balance_of (qx_acc e) ORDER_MARGIN in
  comp <- q_computed_order_margin c e ;;
  _ <- assert (old_om =? comp) PCancelMargin ;;
  match by_, (match by_ with
              | ByOrderId id => remove_by_order_id (qx_active e) id
              | ByUserOrderId uid => remove_by_user_order_id (qx_active e) uid
              end) with
  | ByOrderId id, None =>
      Done (e, Err (if id <? qx_next_id e then EOrderNoLongerActive else EOrderIdNotFound id))
  | ByUserOrderId _, None => Done (e, Err EUserOrderIdNotFound)
  | _, Some (removed, act') =>
      let e1 := put_active e act' in
      om' <- om_remove (qx_om e1) by_ ;;
      let e2 := put_om e1 om' in
      new_om <- q_computed_order_margin c e2 ;;
      _ <- assert (new_om <=? old_om) PCancelMarginGrows ;;
      e3 <- (if new_om <? old_om then
               acc <- transfer (c_dbg c) (qx_acc e2) WALLET ORDER_MARGIN (old_om - new_om) ;;
               Done (put_acc e2 acc)
             else Done e2) ;;
      let e4 := e3 in
      _ <- assert (orders_eqb (qx_om e4) (qx_active e4)) PCancelBooks ;;
      _ <- assert (match qx_active e4 with
                   | [] => margin_balance_of (qx_acc e4) ORDER_MARGIN =? 0
                   | _ => true end) PCancelEmptyMargin ;;
      Done (e4, Ok removed)
  end.

(** src/exchange.rs:382-420, [amend_limit_order]. *)
Definition q_amend_limit_order (c : config) (e : quiet) (id : Z) (new_order : new_limit)
  : outcome (quiet * result error limit_order) :=
  match get_by_id (qx_active e) id with
  | None => Done (e, Err (if id <? qx_next_id e then EOrderNoLongerActive else EOrderIdNotFound id))
  | Some existing =>
      total <- lo_total_quantity existing ;;
      let qty_delta := nl_rem new_order - total in
      let new_leaves := lo_rem existing + qty_delta in
      if new_leaves <=? 0 then
        '(e1, r) <- q_cancel_limit_order c e (ByOrderId id) ;;
        match r with
        | Ok _ => Done (e1, Err EAmendQtyAlreadyFilled)
        | Err _ => Panic PAmendCancel
        end
      else
        new_order' <- set_remaining_quantity new_order new_leaves ;;
        '(e1, r) <- q_cancel_limit_order c e (ByOrderId id) ;;
        match r with
        | Err err => Done (e1, Err err)
        | Ok _ => q_submit_limit_order c e1 new_order'
        end
  end.

(** The body of the loop in src/exchange.rs:582-658 for one order of the arena.
    Returns the exchange without the arena change, the ids to remove and the order as left in the arena. *)
Definition q_fill_one (c : config) (u : market_update) (e : quiet) (ids : list Z) (o : limit_order)
  : outcome (quiet * list Z * limit_order) :=
  let s := c_scale c in
  let dbg := c_dbg c in
  f <- limit_order_filled dbg u o ;;
  match f with
  | None => Done (e, ids, o)
  | Some q =>
      _ <- debug_assert dbg (0 <? q) PFilledQtyDebug ;;
      let old_om := margin_balance_of (qx_acc e) ORDER_MARGIN in
      _ <- debug_assert_m dbg (comp <- q_computed_order_margin c e ;; Done (old_om =? comp)) PFillMarginDebug ;;
      '(o', filled) <- order_fill s o q (update_ts u) ;;
      '(e1, ids1) <- match filled with
                     | Some fo =>
                         om' <- om_remove (qx_om e) (ByOrderId (lo_id o')) ;;
                         Done (put_updates (put_om e om') (qx_updates e ++ [FullyFilled fo]),
                               ids ++ [lo_id o'])
                     | None =>
                         _ <- debug_assert dbg (0 <? lo_rem o') PFillRemDebug ;;
                         '(om', r) <- om_update (c_max c) (qx_om e) o' ;;
                         match r with
                         | Err _ => Panic PFillUpdate
                         | Ok _ =>
                             Done (put_updates (put_om e om')
                                     (qx_updates e ++ [PartiallyFilled o']), ids)
                         end
                     end ;;
      value <- convert_from (c_kind c) s q (lo_price o') ;;
      let fees := dmul s value (ct_maker (c_spec c)) in
      '(pos, acc) <- change_position c (qx_pos e1) (qx_acc e1) q (lo_price o') (lo_side o') fees ;;
      let e2 := put_acc (put_pos e1 pos) acc in
      let e3 := e2 in
      new_om <- q_computed_order_margin c e3 ;;
      _ <- debug_assert dbg (new_om <=? old_om) PFillMarginGrowsDebug ;;
      e4 <- (if new_om <? old_om then
               acc' <- transfer dbg (qx_acc e3) WALLET ORDER_MARGIN (old_om - new_om) ;;
               Done (put_acc e3 acc')
             else Done e3) ;;
      Done (e4, ids1, o')
  end.

(** The loop src/exchange.rs:582-658 over the arena. *)
Fixpoint q_fill_loop (c : config) (u : market_update) (e : quiet) (ids : list Z)
  (todo : list limit_order) : outcome (quiet * list Z * list limit_order) :=
  match todo with
  | [] => Done (e, ids, [])
  | o :: rest =>
      '(e1, ids1, o') <- q_fill_one c u e ids o ;;
      '(e2, ids2, rest') <- q_fill_loop c u e1 ids1 rest ;;
      Done (e2, ids2, o' :: rest')
  end.

(** src/exchange.rs:566-690, [check_active_orders].
    The assertion on the capacity of [ids_to_remove] (663-666) is left to Clone.v; it can only fail on a copy. *)
Definition q_check_active_orders (c : config) (e : quiet) (u : market_update) : outcome quiet :=
  let dbg := c_dbg c in
  let e0 := put_updates e [] in
  if negb (can_fill u) then Done e0
  else
    _ <- debug_assert dbg (orders_eqb (qx_om e0) (qx_active e0)) PBooksDebug ;;
    '(e1, ids, arena) <- q_fill_loop c u e0 [] (qx_active e0) ;;
    act <- remove_executed ids arena ;;
    let e2 := put_active e1 act in
    _ <- debug_assert dbg (orders_eqb (qx_om e2) (qx_active e2)) PBooksDebug ;;
    _ <- debug_assert dbg (match qx_active e2 with
                           | [] => margin_balance_of (qx_acc e2) ORDER_MARGIN =? 0
                           | _ => true end) PEmptyMarginDebug ;;
    _ <- debug_assert_m dbg (comp <- q_computed_order_margin c e2 ;;
                             Done (margin_balance_of (qx_acc e2) ORDER_MARGIN =? comp)) PEndMarginDebug ;;
    _ <- assert_user_wallet_balance (qx_acc e2) ;;
    Done e2.

(** src/exchange.rs:175-210, [update_state]. *)
Definition q_update_state (c : config) (e : quiet) (u : market_update)
  : outcome (quiet * result error (list order_update)) :=
  ms <- market_update_state (c_dbg c) (ct_pf (c_spec c)) u (qx_ms e) ;;
  let e1 := put_ms e ms in
  let e2 := e1 in
  let '(trig, fire) := should_trigger (qx_trig e2) (update_ts u) in
  let e3 := put_trig e2 trig in
  let e4 := if fire then e3 else e3 in
  match check_maintenance_margin c (ms_bid (qx_ms e4)) (ms_ask (qx_ms e4)) (qx_pos e4) with
  | Err err =>
      e5 <- q_liquidate c e4 ;;
      Done (e5, Err (ERisk err))
  | Ok _ =>
      e5 <- q_check_active_orders c e4 u ;;
      Done (e5, Ok (qx_updates e5))
  end.

(** One call of the public API.  Orders and updates are first built by their constructors; if an
    order constructor fails its error is the outcome of the call. *)
Definition q_step (c : config) (e : quiet) (o : op) : outcome (quiet * result error out) :=
  match o with
  | OpUpdate r =>
      u <- build_update (c_dbg c) r ;;
      map_out OutUpdates (q_update_state c e u)
  | OpMarket sd qty uid =>
      match market_new sd qty uid with
      | Err err => Done (e, Err (EOrder err))
      | Ok m => map_out OutMarket (q_submit_market_order c e m)
      end
  | OpLimit sd price qty uid =>
      match limit_new sd price qty uid with
      | Err err => Done (e, Err (EOrder err))
      | Ok l => map_out OutLimit (q_submit_limit_order c e l)
      end
  | OpCancel by_ => map_out OutLimit (q_cancel_limit_order c e by_)
  | OpAmend id sd price qty uid =>
      match limit_new sd price qty uid with
      | Err err => Done (e, Err (EOrder err))
      | Ok l => map_out OutLimit (q_amend_limit_order c e id l)
      end
  | OpCheck r =>
      u <- build_update (c_dbg c) r ;;
      e1 <- q_check_active_orders c e u ;;
      Done (e1, Ok OutUnit)
  end.

(** Histories: a panic ends the history. *)
Fixpoint q_run (c : config) (e : quiet) (ops : list op) : outcome (quiet * list (result error out)) :=
  match ops with
  | [] => Done (e, [])
  | o :: rest =>
      '(e1, r) <- q_step c e o ;;
      '(e2, rs) <- q_run c e1 rest ;;
      Done (e2, r :: rs)
  end.

(** A fresh exchange with a [NoAccountTracker] (src/account_tracker/no_track.rs:9-11, [Default]). *)
Definition q_init (c : config) : outcome quiet := q_exchange_new c.
