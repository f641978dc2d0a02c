(** The exchange with an account tracker of any type.  [Exchange] is generic in its tracker, and the trait
    (src/account_tracker/account_tracker_trait.rs:12-55) is public, so a user of the crate can hand in a tracker of their own.
    The rest of the state is that of Untracked.v; the tracker is a second component. *)
From Verif Require Import Base Types Filters Accounting Currency Position OrderBook OrderMargin
  Risk MarketUpdate Tracker Exchange Untracked.

(** The calls a tracker receives, src/account_tracker/account_tracker_trait.rs:18-54. *)
Inductive event :=
| EvMarket (m : market_state)                        (* update *)
| EvBalances (b : user_balances) (mid : Z)           (* sample_user_balances *)
| EvLimitSubmitted (o : new_limit)                   (* log_limit_order_submission *)
| EvCancelled                                        (* log_limit_order_cancellation *)
| EvLimitFilled (fully : bool) (q : Z)               (* log_limit_order_fill *)
| EvMarketSubmitted (o : new_market)                 (* log_market_order_submission *)
| EvMarketFilled                                     (* log_market_order_fill *)
| EvTrade (sd : side) (price q : Z).                 (* log_trade *)

Section AnyTracker.
(** A tracker: a state and what each call does to it; every method takes [&mut self] and returns nothing, or panics. *)
Context {T : Type} (hook : T -> event -> outcome T).

(** Computations that own the tracker. *)
Definition tm (A : Type) := T -> outcome (T * A).
Definition tret {A} (a : A) : tm A := fun t => Done (t, a).
Definition tlift {A} (m : outcome A) : tm A := fun t => a <- m ;; Done (t, a).
Definition tbind {A B} (m : tm A) (k : A -> tm B) : tm B := fun t => '(t1, a) <- m t ;; k a t1.
Definition tell (ev : event) : tm unit := fun t => t1 <- hook t ev ;; Done (t1, tt).
Local Notation "x <~ m ;; k" := (tbind m (fun x => k)) (at level 61, m at next level, right associativity).
Local Notation "' pat <~ m ;; k" := (tbind m (fun x => match x with pat => k end))
  (at level 61, pat pattern, m at next level, right associativity).

(** src/exchange.rs:279-302, [settle_filled_market_order]. *)
Definition t_settle_filled_market_order (c : config) (e : quiet) (o : filled_market) : tm quiet :=
  let s := c_scale c in
  let qty := fm_qty o in
  let price := fm_avg o in
  _ <~ tlift (assert (0 <? qty) PSettleQty) ;;
  _ <~ tlift (assert (0 <? price) PSettlePrice) ;;
  value <~ tlift (convert_from (c_kind c) s qty price) ;;
  let fees := dmul s value (ct_taker (c_spec c)) in
  '(pos, acc) <~ tlift (change_position c (qx_pos e) (qx_acc e) qty price (fm_side o) fees) ;;
  _ <~ tell EvMarketFilled ;;
  _ <~ tell (EvTrade (fm_side o) price qty) ;;
  tret (put_acc (put_pos e pos) acc).

(** src/exchange.rs:237-277, [submit_market_order]. *)
Definition t_submit_market_order (c : config) (e : quiet) (o : new_market) : tm (quiet * result error filled_market) :=
  _ <~ tell (EvMarketSubmitted o) ;;
  v <~ tlift (validate_order_quantity (ct_qf (c_spec c)) (nm_qty o)) ;;
  match v with
  | Err err => tret (e, Err (EOrder err))
  | Ok _ =>
      let id := qx_next_id e in
      let e2 := put_next_id e (qx_next_id e + 1) in
      let ts := ms_ts (qx_ms e2) in
      let fill_price := match nm_side o with Buy => ms_ask (qx_ms e2) | Sell => ms_bid (qx_ms e2) end in
      let position_margin := margin_balance_of (qx_acc e2) POSITION_MARGIN in
      let wallet := margin_balance_of (qx_acc e2) WALLET in
      r <~ tlift (check_market_order c (qx_pos e2) position_margin (nm_side o) (nm_qty o) fill_price wallet) ;;
      match r with
      | Err err => tret (e2, Err (ERisk err))
      | Ok _ =>
          let filled := market_into_filled o id ts fill_price ts in
          e3 <~ t_settle_filled_market_order c e2 filled ;;
          tret (e3, Ok filled)
      end
  end.

(** src/exchange.rs:213-227, [liquidate]; the market order is built with the default user order id. *)
Definition t_liquidate (c : config) (e : quiet) : tm quiet :=
  order <~ tlift (match qx_pos e with
                  | Long i => match market_new Sell (pi_qty i) 0 with
                              | Ok o => Done o | Err _ => Panic PLiquidateOrder end
                  | Short i => match market_new Buy (pi_qty i) 0 with
                               | Ok o => Done o | Err _ => Panic PLiquidateOrder end
                  | Neutral => Panic PLiquidateNeutral
                  end) ;;
  '(e1, r) <~ t_submit_market_order c e order ;;
  match r with
  | Ok _ => tret e1
  | Err _ => tlift (Panic PLiquidateSubmit)
  end.

(** src/exchange.rs:317-374, [submit_limit_order].  [append_limit_order] (426-480) does not call the tracker, so it is that of
    Untracked.v. *)
Definition t_submit_limit_order (c : config) (e : quiet) (o : new_limit) : tm (quiet * result error limit_order) :=
  _ <~ tell (EvLimitSubmitted o) ;;
  v <~ tlift (validate_order_quantity (ct_qf (c_spec c)) (nl_rem o)) ;;
  match v with
  | Err err => tret (e, Err (EOrder err))
  | Ok _ =>
      p <~ tlift (validate_limit_price (c_scale c) (ct_pf (c_spec c)) (nl_price o) (mid_price (qx_ms e))) ;;
      match p with
      | Err err => tret (e, Err (EOrder err))
      | Ok _ =>
          let order := limit_into_pending o (qx_next_id e) (ms_ts (qx_ms e)) in
          let e2 := put_next_id e (qx_next_id e + 1) in
          let wallet := margin_balance_of (qx_acc e2) WALLET in
          r <~ tlift (check_limit_order c (qx_pos e2) order wallet (qx_om e2)) ;;
          match r with
          | Err err => tret (e2, Err (ERisk err))
          | Ok _ =>
              if marketable (qx_ms e2) order
              then tret (e2, Err (EOrder GoodTillCrossingRejectedOrder))
              else
                '(e3, a) <~ tlift (q_append_limit_order c e2 order) ;;
                match a with
                | Err err => tret (e3, Err err)
                | Ok _ => tret (e3, Ok order)
                end
          end
      end
  end.

(** src/exchange.rs:484-549, [cancel_limit_order]. *)
Definition t_cancel_limit_order (c : config) (e : quiet) (by_ : cancel_by) : tm (quiet * result error limit_order) :=
  let old_om := margin_balance_of (qx_acc e) ORDER_MARGIN in
  comp <~ tlift (q_computed_order_margin c e) ;;
  _ <~ tlift (assert (old_om =? comp) PCancelMargin) ;;
  match by_, (match by_ with
              | ByOrderId id => remove_by_order_id (qx_active e) id
              | ByUserOrderId uid => remove_by_user_order_id (qx_active e) uid
              end) with
  | ByOrderId id, None =>
      tret (e, Err (if id <? qx_next_id e then EOrderNoLongerActive else EOrderIdNotFound id))
  | ByUserOrderId _, None => tret (e, Err EUserOrderIdNotFound)
  | _, Some (removed, act') =>
      let e1 := put_active e act' in
      om' <~ tlift (om_remove (qx_om e1) by_) ;;
      let e2 := put_om e1 om' in
      new_om <~ tlift (q_computed_order_margin c e2) ;;
      _ <~ tlift (assert (new_om <=? old_om) PCancelMarginGrows) ;;
      e3 <~ tlift (if new_om <? old_om then
                     acc <- transfer (c_dbg c) (qx_acc e2) WALLET ORDER_MARGIN (old_om - new_om) ;;
                     Done (put_acc e2 acc)
                   else Done e2) ;;
      _ <~ tell EvCancelled ;;
      _ <~ tlift (assert (orders_eqb (qx_om e3) (qx_active e3)) PCancelBooks) ;;
      _ <~ tlift (assert (match qx_active e3 with
                          | [] => margin_balance_of (qx_acc e3) ORDER_MARGIN =? 0
                          | _ => true end) PCancelEmptyMargin) ;;
      tret (e3, Ok removed)
  end.

(** src/exchange.rs:382-420, [amend_limit_order]. *)
Definition t_amend_limit_order (c : config) (e : quiet) (id : Z) (new_order : new_limit) : tm (quiet * result error limit_order) :=
  match get_by_id (qx_active e) id with
  | None => tret (e, Err (if id <? qx_next_id e then EOrderNoLongerActive else EOrderIdNotFound id))
  | Some existing =>
      total <~ tlift (lo_total_quantity existing) ;;
      let qty_delta := nl_rem new_order - total in
      let new_leaves := lo_rem existing + qty_delta in
      if new_leaves <=? 0 then
        '(e1, r) <~ t_cancel_limit_order c e (ByOrderId id) ;;
        match r with
        | Ok _ => tret (e1, Err EAmendQtyAlreadyFilled)
        | Err _ => tlift (Panic PAmendCancel)
        end
      else
        new_order' <~ tlift (set_remaining_quantity new_order new_leaves) ;;
        '(e1, r) <~ t_cancel_limit_order c e (ByOrderId id) ;;
        match r with
        | Err err => tret (e1, Err err)
        | Ok _ => t_submit_limit_order c e1 new_order'
        end
  end.

(** The body of the loop in src/exchange.rs:582-658 for one order of the arena, as [fill_one]. *)
Definition t_fill_one (c : config) (u : market_update) (e : quiet) (ids : list Z) (o : limit_order)
  : tm (quiet * list Z * limit_order) :=
  let s := c_scale c in
  let dbg := c_dbg c in
  f <~ tlift (limit_order_filled dbg u o) ;;
  match f with
  | None => tret (e, ids, o)
  | Some q =>
      _ <~ tlift (debug_assert dbg (0 <? q) PFilledQtyDebug) ;;
      let old_om := margin_balance_of (qx_acc e) ORDER_MARGIN in
      _ <~ tlift (debug_assert_m dbg (comp <- q_computed_order_margin c e ;; Done (old_om =? comp)) PFillMarginDebug) ;;
      '(o', filled) <~ tlift (order_fill s o q (update_ts u)) ;;
      '(e1, ids1) <~ match filled with
                     | Some fo =>
                         _ <~ tell (EvLimitFilled true q) ;;
                         om' <~ tlift (om_remove (qx_om e) (ByOrderId (lo_id o'))) ;;
                         tret (put_updates (put_om e om') (qx_updates e ++ [FullyFilled fo]), ids ++ [lo_id o'])
                     | None =>
                         _ <~ tlift (debug_assert dbg (0 <? lo_rem o') PFillRemDebug) ;;
                         _ <~ tell (EvLimitFilled false q) ;;
                         '(om', r) <~ tlift (om_update (c_max c) (qx_om e) o') ;;
                         match r with
                         | Err _ => tlift (Panic PFillUpdate)
                         | Ok _ => tret (put_updates (put_om e om') (qx_updates e ++ [PartiallyFilled o']), ids)
                         end
                     end ;;
      value <~ tlift (convert_from (c_kind c) s q (lo_price o')) ;;
      let fees := dmul s value (ct_maker (c_spec c)) in
      '(pos, acc) <~ tlift (change_position c (qx_pos e1) (qx_acc e1) q (lo_price o') (lo_side o') fees) ;;
      let e2 := put_acc (put_pos e1 pos) acc in
      _ <~ tell (EvTrade (lo_side o') (lo_price o') q) ;;
      new_om <~ tlift (q_computed_order_margin c e2) ;;
      _ <~ tlift (debug_assert dbg (new_om <=? old_om) PFillMarginGrowsDebug) ;;
      e4 <~ tlift (if new_om <? old_om then
                     acc' <- transfer dbg (qx_acc e2) WALLET ORDER_MARGIN (old_om - new_om) ;;
                     Done (put_acc e2 acc')
                   else Done e2) ;;
      tret (e4, ids1, o')
  end.

(** The loop src/exchange.rs:582-658 over the arena. *)
Fixpoint t_fill_loop (c : config) (u : market_update) (e : quiet) (ids : list Z)
  (todo : list limit_order) : tm (quiet * list Z * list limit_order) :=
  match todo with
  | [] => tret (e, ids, [])
  | o :: rest =>
      '(e1, ids1, o') <~ t_fill_one c u e ids o ;;
      '(e2, ids2, rest') <~ t_fill_loop c u e1 ids1 rest ;;
      tret (e2, ids2, o' :: rest')
  end.

(** src/exchange.rs:566-690, [check_active_orders].
    The assertion on the capacity of [ids_to_remove] (663-666) is left to Clone.v; it can only fail on a copy. *)
Definition t_check_active_orders (c : config) (e : quiet) (u : market_update) : tm quiet :=
  let dbg := c_dbg c in
  let e0 := put_updates e [] in
  if negb (can_fill u) then tret e0
  else
    _ <~ tlift (debug_assert dbg (orders_eqb (qx_om e0) (qx_active e0)) PBooksDebug) ;;
    '(e1, ids, arena) <~ t_fill_loop c u e0 [] (qx_active e0) ;;
    act <~ tlift (remove_executed ids arena) ;;
    let e2 := put_active e1 act in
    _ <~ tlift (debug_assert dbg (orders_eqb (qx_om e2) (qx_active e2)) PBooksDebug) ;;
    _ <~ tlift (debug_assert dbg (match qx_active e2 with
                                  | [] => margin_balance_of (qx_acc e2) ORDER_MARGIN =? 0
                                  | _ => true end) PEmptyMarginDebug) ;;
    _ <~ tlift (debug_assert_m dbg (comp <- q_computed_order_margin c e2 ;;
                                    Done (margin_balance_of (qx_acc e2) ORDER_MARGIN =? comp)) PEndMarginDebug) ;;
    _ <~ tlift (assert_user_wallet_balance (qx_acc e2)) ;;
    tret e2.

(** src/exchange.rs:175-210, [update_state]. *)
Definition t_update_state (c : config) (e : quiet) (u : market_update) : tm (quiet * result error (list order_update)) :=
  ms <~ tlift (market_update_state (c_dbg c) (ct_pf (c_spec c)) u (qx_ms e)) ;;
  let e1 := put_ms e ms in
  _ <~ tell (EvMarket (qx_ms e1)) ;;
  let '(trig, fire) := should_trigger (qx_trig e1) (update_ts u) in
  let e3 := put_trig e1 trig in
  _ <~ (if fire : bool then tell (EvBalances (q_balances e3) (mid_price (qx_ms e3))) else tret tt) ;;
  match check_maintenance_margin c (ms_bid (qx_ms e3)) (ms_ask (qx_ms e3)) (qx_pos e3) with
  | Err err =>
      e5 <~ t_liquidate c e3 ;;
      tret (e5, Err (ERisk err))
  | Ok _ =>
      e5 <~ t_check_active_orders c e3 u ;;
      tret (e5, Ok (qx_updates e5))
  end.

(** One call of the public API, as [step]. *)
Definition tmap_out {E A B} (f : A -> B) (m : tm (quiet * result E A)) : tm (quiet * result E B) :=
  '(e, r) <~ m ;;
  tret (e, map_result f r).
Definition t_step (c : config) (e : quiet) (o : op) : tm (quiet * result error out) :=
  match o with
  | OpUpdate r =>
      u <~ tlift (build_update (c_dbg c) r) ;;
      tmap_out OutUpdates (t_update_state c e u)
  | OpMarket sd qty uid =>
      match market_new sd qty uid with
      | Err err => tret (e, Err (EOrder err))
      | Ok m => tmap_out OutMarket (t_submit_market_order c e m)
      end
  | OpLimit sd price qty uid =>
      match limit_new sd price qty uid with
      | Err err => tret (e, Err (EOrder err))
      | Ok l => tmap_out OutLimit (t_submit_limit_order c e l)
      end
  | OpCancel by_ => tmap_out OutLimit (t_cancel_limit_order c e by_)
  | OpAmend id sd price qty uid =>
      match limit_new sd price qty uid with
      | Err err => tret (e, Err (EOrder err))
      | Ok l => tmap_out OutLimit (t_amend_limit_order c e id l)
      end
  | OpCheck r =>
      u <~ tlift (build_update (c_dbg c) r) ;;
      e1 <~ t_check_active_orders c e u ;;
      tret (e1, Ok OutUnit)
  end.

(** Histories: a panic ends the history. *)
Fixpoint t_run (c : config) (e : quiet) (ops : list op) : tm (quiet * list (result error out)) :=
  match ops with
  | [] => tret (e, [])
  | o :: rest =>
      '(e1, r) <~ t_step c e o ;;
      '(e2, rs) <~ t_run c e1 rest ;;
      tret (e2, r :: rs)
  end.
End AnyTracker.

(** The [FullAccountTracker] as such a tracker (src/account_tracker/full_track.rs:279-378). *)
Definition full_tracker (c : config) (t : tracker) (ev : event) : outcome tracker :=
  match ev with
  | EvMarket m => Done (tracker_update t m)
  | EvBalances b _ => Done (tracker_sample t (balances_sum b))
  | EvLimitSubmitted _ => Done (log_limit_order_submission t)
  | EvCancelled => Done (log_limit_order_cancellation t)
  | EvLimitFilled fully _ => Done (log_limit_order_fill t fully)
  | EvMarketSubmitted _ => Done (log_market_order_submission t)
  | EvMarketFilled => Done (log_market_order_fill t)
  | EvTrade sd p q => log_trade c t sd p q
  end.
(** The [NoAccountTracker] (src/account_tracker/no_track.rs:21-66). *)
Definition no_tracker (t : unit) (ev : event) : outcome unit := Done tt.
