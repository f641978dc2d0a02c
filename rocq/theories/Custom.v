(** Market updates of any kind.  [update_state] and [check_active_orders] are generic over the public trait
    [MarketUpdate] (src/market_update/market_update_trait.rs:8-31), so a user of the crate can hand in updates of a type
    of their own.  Here the exchange takes any such update. *)
From Verif Require Import Base Types Filters Accounting Currency Position OrderBook OrderMargin Risk MarketUpdate Tracker Exchange.

(** What the exchange sees of an update: the members of the trait, in the order of the declaration.
    Each is a function of its arguments that returns or panics.  [update_market_state] may set any market state; a
    type outside the crate can in fact only keep it, copy another one or reset it, because the setters are private. *)
Record custom := {
  cu_can : bool;                                        (* CAN_FILL_LIMIT_ORDERS *)
  cu_fill : limit_order -> outcome (option Z);          (* limit_order_filled *)
  cu_valid : price_filter -> outcome bool;              (* validate_market_update(..).is_ok() *)
  cu_market : market_state -> outcome market_state;     (* update_market_state *)
  cu_ts : Z                                             (* timestamp_exchange_ns *)
}.

(** The four types of the crate. *)
Definition custom_of (dbg : bool) (u : market_update) : custom :=
  {| cu_can := can_fill u;
     cu_fill := limit_order_filled dbg u;
     cu_valid := fun f => v <- validate_market_update f u ;; Done (is_ok v);
     cu_market := fun m => Done (update_market_state u m);
     cu_ts := update_ts u |}.

(** src/market_state.rs:56-73, [update_state]. *)
Definition x_market_state (dbg : bool) (f : price_filter) (k : custom) (m : market_state) : outcome market_state :=
  _ <- debug_assert_m dbg (cu_valid k f) PInvalidUpdateDebug ;;
  m1 <- cu_market k m ;;
  Done {| ms_bid := ms_bid m1; ms_ask := ms_ask m1; ms_ts := cu_ts k; ms_step := ms_step m1 + 1 |}.

(** The body of the loop in src/exchange.rs:582-658 for one order of the arena, as [fill_one]. *)
Definition x_fill_one (c : config) (k : custom) (e : exchange) (ids : list Z) (o : limit_order)
  : outcome (exchange * list Z * limit_order) :=
  let s := c_scale c in
  let dbg := c_dbg c in
  f <- cu_fill k o ;;
  match f with
  | None => Done (e, ids, o)
  | Some q =>
      _ <- debug_assert dbg (0 <? q) PFilledQtyDebug ;;
      let old_om := margin_balance_of (ex_acc e) ORDER_MARGIN in
      _ <- debug_assert_m dbg (comp <- computed_order_margin c e ;; Done (old_om =? comp)) PFillMarginDebug ;;
      '(o', filled) <- order_fill s o q (cu_ts k) ;;
      '(e1, ids1) <- match filled with
                     | Some fo =>
                         let t1 := log_limit_order_fill (ex_trk e) true in
                         om' <- om_remove (ex_om e) (ByOrderId (lo_id o')) ;;
                         Done (set_updates (set_om (set_trk e t1) om') (ex_updates e ++ [FullyFilled fo]),
                               ids ++ [lo_id o'])
                     | None =>
                         _ <- debug_assert dbg (0 <? lo_rem o') PFillRemDebug ;;
                         let t1 := log_limit_order_fill (ex_trk e) false in
                         '(om', r) <- om_update (c_max c) (ex_om e) o' ;;
                         match r with
                         | Err _ => Panic PFillUpdate
                         | Ok _ =>
                             Done (set_updates (set_om (set_trk e t1) om')
                                     (ex_updates e ++ [PartiallyFilled o']), ids)
                         end
                     end ;;
      value <- convert_from (c_kind c) s q (lo_price o') ;;
      let fees := dmul s value (ct_maker (c_spec c)) in
      '(pos, acc) <- change_position c (ex_pos e1) (ex_acc e1) q (lo_price o') (lo_side o') fees ;;
      let e2 := set_acc (set_pos e1 pos) acc in
      t2 <- log_trade c (ex_trk e2) (lo_side o') (lo_price o') q ;;
      let e3 := set_trk e2 t2 in
      new_om <- computed_order_margin c e3 ;;
      _ <- debug_assert dbg (new_om <=? old_om) PFillMarginGrowsDebug ;;
      e4 <- (if new_om <? old_om then
               acc' <- transfer dbg (ex_acc e3) WALLET ORDER_MARGIN (old_om - new_om) ;;
               Done (set_acc e3 acc')
             else Done e3) ;;
      Done (e4, ids1, o')
  end.

(** The loop src/exchange.rs:582-658 over the arena. *)
Fixpoint x_fill_loop (c : config) (k : custom) (e : exchange) (ids : list Z)
  (todo : list limit_order) : outcome (exchange * list Z * list limit_order) :=
  match todo with
  | [] => Done (e, ids, [])
  | o :: rest =>
      '(e1, ids1, o') <- x_fill_one c k e ids o ;;
      '(e2, ids2, rest') <- x_fill_loop c k e1 ids1 rest ;;
      Done (e2, ids2, o' :: rest')
  end.

(** src/exchange.rs:566-690, [check_active_orders]. *)
Definition x_check (c : config) (e : exchange) (k : custom) : outcome exchange :=
  let dbg := c_dbg c in
  let e0 := set_updates e [] in
  if negb (cu_can k) then Done e0
  else
    _ <- debug_assert dbg (orders_eqb (ex_om e0) (ex_active e0)) PBooksDebug ;;
    '(e1, ids, arena) <- x_fill_loop c k e0 [] (ex_active e0) ;;
    act <- remove_executed ids arena ;;
    let e2 := set_active e1 act in
    _ <- debug_assert dbg (orders_eqb (ex_om e2) (ex_active e2)) PBooksDebug ;;
    _ <- debug_assert dbg (match ex_active e2 with
                           | [] => margin_balance_of (ex_acc e2) ORDER_MARGIN =? 0
                           | _ => true end) PEmptyMarginDebug ;;
    _ <- debug_assert_m dbg (comp <- computed_order_margin c e2 ;;
                             Done (margin_balance_of (ex_acc e2) ORDER_MARGIN =? comp)) PEndMarginDebug ;;
    _ <- assert_user_wallet_balance (ex_acc e2) ;;
    Done e2.

(** src/exchange.rs:175-210, [update_state]. *)
Definition x_update (c : config) (e : exchange) (k : custom) : outcome (exchange * result error (list order_update)) :=
  ms <- x_market_state (c_dbg c) (ct_pf (c_spec c)) k (ex_ms e) ;;
  let e1 := set_ms e ms in
  let e2 := set_trk e1 (tracker_update (ex_trk e1) (ex_ms e1)) in
  let '(trig, fire) := should_trigger (ex_trig e2) (cu_ts k) in
  let e3 := set_trig e2 trig in
  let e4 := if fire then set_trk e3 (tracker_sample (ex_trk e3) (balances_sum (balances e3))) else e3 in
  match check_maintenance_margin c (ms_bid (ex_ms e4)) (ms_ask (ex_ms e4)) (ex_pos e4) with
  | Err err =>
      e5 <- liquidate c e4 ;;
      Done (e5, Err (ERisk err))
  | Ok _ =>
      e5 <- x_check c e4 k ;;
      Done (e5, Ok (ex_updates e5))
  end.

(** A user of the exchange who mixes ordinary calls with updates of other types. *)
Inductive xop :=
| XCall (o : op)
| XUpdate (k : custom)
| XCheck (k : custom).         (* the public [check_active_orders] *)

Definition x_step (c : config) (e : exchange) (o : xop) : outcome (exchange * result error out) :=
  match o with
  | XCall o => step c e o
  | XUpdate k => map_out OutUpdates (x_update c e k)
  | XCheck k => e1 <- x_check c e k ;; Done (e1, Ok OutUnit)
  end.

Fixpoint x_run (c : config) (e : exchange) (ops : list xop) : outcome (exchange * list (result error out)) :=
  match ops with
  | [] => Done (e, [])
  | o :: rest =>
      '(e1, r) <- x_step c e o ;;
      '(e2, rs) <- x_run c e1 rest ;;
      Done (e2, r :: rs)
  end.
