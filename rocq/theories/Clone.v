(** Allocated sizes of the vectors of an exchange, and copies of an exchange ([derive(Clone)]). *)
From Verif Require Import Base Types Filters Accounting Currency Position OrderBook OrderMargin
  Risk MarketUpdate Tracker Exchange.

(** [Vec::capacity] of the three vectors whose allocated size the code looks at:
    [active_limit_orders.arena] and [order_margin.active_limit_orders.arena]
    (src/active_limit_orders.rs:84) and [ids_to_remove] (src/exchange.rs:663-666). *)
Record caps := { cap_arena : Z; cap_tracked : Z; cap_ids : Z }.

(** An exchange with its allocated sizes. *)
Record xchg := { x_ex : exchange; x_caps : caps }.

(** src/exchange.rs:130 and 140-144: the sizes given by [Exchange::new]. *)
Definition caps_new (c : config) : caps :=
  {| cap_arena := active_capacity; cap_tracked := c_max c; cap_ids := c_max c |}.

(** [Exchange] derives [Clone] (src/exchange.rs:63), as do [OrderMargin] (src/order_margin.rs:17)
    and [ActiveLimitOrders] (src/active_limit_orders.rs:13).  All fields are copied; [Vec::clone]
    allocates room for exactly the elements it copies, and [ids_to_remove] is empty between calls. *)
Definition x_clone (x : xchg) : xchg :=
  {| x_ex := x_ex x;
     x_caps := {| cap_arena := Z.of_nat (length (ex_active (x_ex x)));
                  cap_tracked := Z.of_nat (length (ex_om (x_ex x)));
                  cap_ids := 0 |} |}.

(** [Vec::push] of the standard library: a full vector at least doubles, to no less than 4
    elements of the size of an [OrderId]. *)
Definition push_cap (cap len : Z) : Z :=
  if len <? cap then cap else Z.max 4 (Z.max (2 * cap) (len + 1)).

(** The capacity of [ids_to_remove] after the pushes src/exchange.rs:611, from empty. *)
Fixpoint pushed_cap (cap : Z) (n : nat) : Z :=
  match n with
  | O => cap
  | S m => push_cap (pushed_cap cap m) (Z.of_nat m)
  end.

(** src/exchange.rs:426-480, [append_limit_order], with explicit capacities. *)
Definition x_append (c : config) (k : caps) (e : exchange) (o : limit_order)
  : outcome (exchange * result error unit) :=
  '(om', r) <- om_update (cap_tracked k) (ex_om e) o ;;
  let e1 := set_om e om' in
  match r with
  | Err err => Done (e1, Err err)
  | Ok _ =>
      match book_insert (cap_arena k) (ex_active e1) o with
      | (act', Err err) => Done (set_active e1 act', Err err)
      | (act', Ok _) =>
          let e2 := set_active e1 act' in
          new_om <- computed_order_margin c e2 ;;
          let old_om := margin_balance_of (ex_acc e2) ORDER_MARGIN in
          match new_om ?= old_om with
          | Eq => Done (e2, Ok tt)
          | cmp =>
              let amt := match cmp with Gt => new_om - old_om | _ => old_om - new_om end in
              acc <- transfer (c_dbg c) (ex_acc e2) ORDER_MARGIN WALLET amt ;;
              let e3 := set_acc e2 acc in
              _ <- assert (orders_eqb (ex_om e3) (ex_active e3)) PAppendBooks ;;
              _ <- assert (match ex_active e3 with
                           | [] => margin_balance_of (ex_acc e3) ORDER_MARGIN =? 0
                           | _ => true end) PAppendEmptyMargin ;;
              _ <- assert_user_wallet_balance (ex_acc e3) ;;
              Done (e3, Ok tt)
          end
      end
  end.

(** src/exchange.rs:317-374, [submit_limit_order], with explicit capacities. *)
Definition x_submit_limit (c : config) (k : caps) (e : exchange) (o : new_limit)
  : outcome (exchange * result error limit_order) :=
  let e1 := set_trk e (log_limit_order_submission (ex_trk e)) in
  v <- validate_order_quantity (ct_qf (c_spec c)) (nl_rem o) ;;
  match v with
  | Err err => Done (e1, Err (EOrder err))
  | Ok _ =>
      p <- validate_limit_price (c_scale c) (ct_pf (c_spec c)) (nl_price o) (mid_price (ex_ms e1)) ;;
      match p with
      | Err err => Done (e1, Err (EOrder err))
      | Ok _ =>
          let order := limit_into_pending o (ex_next_id e1) (ms_ts (ex_ms e1)) in
          let e2 := set_next_id e1 (ex_next_id e1 + 1) in
          let wallet := margin_balance_of (ex_acc e2) WALLET in
          r <- check_limit_order c (ex_pos e2) order wallet (ex_om e2) ;;
          match r with
          | Err err => Done (e2, Err (ERisk err))
          | Ok _ =>
              if marketable (ex_ms e2) order
              then Done (e2, Err (EOrder GoodTillCrossingRejectedOrder))
              else
                '(e3, a) <- x_append c k e2 order ;;
                match a with
                | Err err => Done (e3, Err err)
                | Ok _ => Done (e3, Ok order)
                end
          end
      end
  end.

(** src/exchange.rs:382-420, [amend_limit_order], with explicit capacities. *)
Definition x_amend (c : config) (k : caps) (e : exchange) (id : Z) (new_order : new_limit)
  : outcome (exchange * result error limit_order) :=
  match get_by_id (ex_active e) id with
  | None => Done (e, Err (if id <? ex_next_id e then EOrderNoLongerActive else EOrderIdNotFound id))
  | Some existing =>
      total <- lo_total_quantity existing ;;
      let qty_delta := nl_rem new_order - total in
      let new_leaves := lo_rem existing + qty_delta in
      if new_leaves <=? 0 then
        '(e1, r) <- cancel_limit_order c e (ByOrderId id) ;;
        match r with
        | Ok _ => Done (e1, Err EAmendQtyAlreadyFilled)
        | Err _ => Panic PAmendCancel
        end
      else
        new_order' <- set_remaining_quantity new_order new_leaves ;;
        '(e1, r) <- cancel_limit_order c e (ByOrderId id) ;;
        match r with
        | Err err => Done (e1, Err err)
        | Ok _ => x_submit_limit c k e1 new_order'
        end
  end.

(** The configuration with another [max_num_open_orders].  [fill_loop] consults [c_max] only as
    the capacity of the tracked book. *)
Definition with_max (c : config) (n : Z) : config :=
  {| c_kind := c_kind c; c_scale := c_scale c; c_dbg := c_dbg c; c_start := c_start c; c_max := n;
     c_spec := c_spec c; c_sample_s := c_sample_s c |}.

(** src/exchange.rs:566-690, [check_active_orders], with explicit capacities and with the
    assertion about them (663-666). *)
Definition x_check (c : config) (k : caps) (e : exchange) (u : market_update)
  : outcome (exchange * caps) :=
  let dbg := c_dbg c in
  let e0 := set_updates e [] in
  if negb (can_fill u) then Done (e0, k)
  else
    _ <- debug_assert dbg (orders_eqb (ex_om e0) (ex_active e0)) PBooksDebug ;;
    '(e1, ids, arena) <- fill_loop (with_max c (cap_tracked k)) u e0 [] (ex_active e0) ;;
    act <- remove_executed ids arena ;;
    let k1 := {| cap_arena := cap_arena k; cap_tracked := cap_tracked k;
                 cap_ids := pushed_cap (cap_ids k) (length ids) |} in
    _ <- debug_assert dbg (cap_ids k1 =? c_max c) PIdsCapacityDebug ;;
    let e2 := set_active e1 act in
    _ <- debug_assert dbg (orders_eqb (ex_om e2) (ex_active e2)) PBooksDebug ;;
    _ <- debug_assert dbg (match ex_active e2 with
                           | [] => margin_balance_of (ex_acc e2) ORDER_MARGIN =? 0
                           | _ => true end) PEmptyMarginDebug ;;
    _ <- debug_assert_m dbg (comp <- computed_order_margin c e2 ;;
                             Done (margin_balance_of (ex_acc e2) ORDER_MARGIN =? comp)) PEndMarginDebug ;;
    _ <- assert_user_wallet_balance (ex_acc e2) ;;
    Done (e2, k1).

(** src/exchange.rs:175-210, [update_state], with explicit capacities. *)
Definition x_update (c : config) (k : caps) (e : exchange) (u : market_update)
  : outcome (exchange * caps * result error (list order_update)) :=
  ms <- market_update_state (c_dbg c) (ct_pf (c_spec c)) u (ex_ms e) ;;
  let e1 := set_ms e ms in
  let e2 := set_trk e1 (tracker_update (ex_trk e1) (ex_ms e1)) in
  let '(trig, fire) := should_trigger (ex_trig e2) (update_ts u) in
  let e3 := set_trig e2 trig in
  let e4 := if fire then set_trk e3 (tracker_sample (ex_trk e3) (balances_sum (balances e3))) else e3 in
  match check_maintenance_margin c (ms_bid (ex_ms e4)) (ms_ask (ex_ms e4)) (ex_pos e4) with
  | Err err =>
      e5 <- liquidate c e4 ;;
      Done (e5, k, Err (ERisk err))
  | Ok _ =>
      '(e5, k5) <- x_check c k e4 u ;;
      Done (e5, k5, Ok (ex_updates e5))
  end.

(** One call of the public API on an exchange with explicit capacities. *)
Definition x_call (c : config) (x : xchg) (o : op) : outcome (xchg * result error out) :=
  let e := x_ex x in
  let k := x_caps x in
  let keep m := '(e1, r) <- m ;; Done ({| x_ex := e1; x_caps := k |}, r) in
  match o with
  | OpUpdate r =>
      u <- build_update (c_dbg c) r ;;
      '(e1, k1, res) <- x_update c k e u ;;
      Done ({| x_ex := e1; x_caps := k1 |}, map_result OutUpdates res)
  | OpMarket _ _ _ | OpCancel _ => keep (step c e o)
  | OpLimit sd price qty uid =>
      match limit_new sd price qty uid with
      | Err err => Done (x, Err (EOrder err))
      | Ok l => keep (map_out OutLimit (x_submit_limit c k e l))
      end
  | OpAmend id sd price qty uid =>
      match limit_new sd price qty uid with
      | Err err => Done (x, Err (EOrder err))
      | Ok l => keep (map_out OutLimit (x_amend c k e id l))
      end
  | OpCheck r =>
      u <- build_update (c_dbg c) r ;;
      '(e1, k1) <- x_check c k e u ;;
      Done ({| x_ex := e1; x_caps := k1 |}, Ok OutUnit)
  end.

(** A user either calls the API or goes on with a copy of the exchange. *)
Inductive xop := XCall (o : op) | XClone.

(** Histories; a copy returns nothing. *)
Fixpoint x_run (c : config) (x : xchg) (l : list xop) : outcome (xchg * list (result error out)) :=
  match l with
  | [] => Done (x, [])
  | XClone :: rest => x_run c (x_clone x) rest
  | XCall o :: rest =>
      '(x1, r) <- x_call c x o ;;
      '(x2, rs) <- x_run c x1 rest ;;
      Done (x2, r :: rs)
  end.

(** src/exchange.rs:122-146, [Exchange::new] for the configured balance. *)
Definition x_init (c : config) : outcome xchg :=
  e <- init c ;; Done {| x_ex := e; x_caps := caps_new c |}.
