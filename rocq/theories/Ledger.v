(** The exchange with an accounting of any type.  [Exchange] is generic in its accounting and the trait [TransactionAccounting]
    (src/accounting/mod.rs:13-29) is public; the crate itself has two implementations.  The accounting is a component of its own;
    the rest of the state is the record of Exchange.v, whose field [ex_acc] is neither read nor written here. *)
From Verif Require Import Base Types Filters Accounting Currency Position OrderBook OrderMargin
  Risk MarketUpdate Tracker Exchange.

(** src/accounting/mod.rs:13-29.  The methods return, return an error or panic.  [a_expect] names the panic of an [expect] that
    meets an error.  A transaction is given as a whole, although its fields (src/accounting/transaction.rs:16-20) can only be read
    within the crate; elsewhere an implementation sees what [Debug] prints of it. *)
Record accounting (A : Type) := {
  a_new : Z -> outcome A;
  a_transfer : A -> transaction -> outcome (A * result error unit);
  a_balance : A -> account_id -> outcome (result error Z);
  a_expect : error -> panic_site
}.
Arguments a_new {A}. Arguments a_transfer {A}. Arguments a_balance {A}. Arguments a_expect {A}.

Section AnyAccounting.
Context {A : Type} (L : accounting A).

(** Computations that own the accounting. *)
Definition am (X : Type) := A -> outcome (A * X).
Definition aret {X} (x : X) : am X := fun a => Done (a, x).
Definition alift {X} (m : outcome X) : am X := fun a => x <- m ;; Done (a, x).
Definition abind {X Y} (m : am X) (k : X -> am Y) : am Y := fun a => '(a1, x) <- m a ;; k x a1.
Local Notation "x <~ m ;; k" := (abind m (fun x => k)) (at level 61, m at next level, right associativity).
Local Notation "' pat <~ m ;; k" := (abind m (fun x => match x with pat => k end))
  (at level 61, pat pattern, m at next level, right associativity).

(** [margin_balance_of(id)] whose error is handed on with [?]. *)
Definition ask (id : account_id) : am (result error Z) := fun a => r <- a_balance L a id ;; Done (a, r).
Definition unwrap {X} (r : result error X) : am X :=
  match r with Ok x => aret x | Err err => alift (Panic (a_expect L err)) end.
(** [margin_balance_of(id).expect(..)]. *)
Definition bal (id : account_id) : am Z := r <~ ask id ;; unwrap r.
(** [let t = Transaction::new(d, c, amt); accounting.create_margin_transfer(t).expect(..)]. *)
Definition pay (d c : account_id) (amt : Z) : am unit :=
  tx <~ alift (transaction_new d c amt) ;;
  r <~ (fun a => a_transfer L a tx) ;;
  unwrap r.
(** [debug_assert!] of a computed condition. *)
Definition adebug (dbg : bool) (m : am bool) (p : panic_site) : am unit :=
  if dbg then b <~ m ;; alift (assert b p) else aret tt.

(** ** Position *)
(** src/position_inner.rs:74-101, [PositionInner::new]. *)
Definition a_inner_new (c : config) (qty price fees : Z) : am position_inner :=
  let s := c_scale c in
  _ <~ alift (assert (0 <? qty) PNewPosQty) ;;
  _ <~ alift (assert (0 <? price) PNewPosPrice) ;;
  value <~ alift (convert_from (c_kind c) s qty price) ;;
  _ <~ pay POSITION_MARGIN WALLET (dmul s value (ct_imr (c_spec c))) ;;
  aret {| pi_qty := qty; pi_entry := price; pi_fees := fees |}.

(** src/position_inner.rs:120-155, [increase_contracts]. *)
Definition a_increase_contracts (c : config) (p : position_inner) (qty price fees : Z) : am position_inner :=
  let s := c_scale c in
  _ <~ alift (assert (0 <? qty) PIncQty) ;;
  _ <~ alift (assert (0 <? price) PIncPrice) ;;
  value <~ alift (convert_from (c_kind c) s qty price) ;;
  entry <~ alift (new_weighted_price s (pi_entry p) (pi_qty p) price qty) ;;
  _ <~ pay POSITION_MARGIN WALLET (dmul s value (ct_imr (c_spec c))) ;;
  aret {| pi_qty := pi_qty p + qty; pi_entry := entry; pi_fees := pi_fees p + fees |}.

(** src/position_inner.rs:158-228, [decrease_contracts]. *)
Definition a_decrease_contracts (c : config) (p : position_inner) (qty price : Z) (long : bool) (fees : Z) : am position_inner :=
  let s := c_scale c in
  let dbg := c_dbg c in
  _ <~ alift (assert (0 <? qty) PDecQty) ;;
  _ <~ alift (assert (qty <=? pi_qty p) PDecQtyTooLarge) ;;
  let entry := pi_entry p in
  let qty' := pi_qty p - qty in
  let fees' := pi_fees p + fees in
  _ <~ alift (debug_assert dbg (0 <=? qty') PDecQtyNegDebug) ;;
  profit <~ alift (pnl (c_kind c) s entry price (if long then qty else - qty)) ;;
  _ <~ match profit ?= 0 with
       | Gt => pay WALLET TREASURY profit
       | Lt => pay TREASURY WALLET (Z.abs profit)
       | Eq => aret tt
       end ;;
  value <~ alift (convert_from (c_kind c) s qty entry) ;;
  let margin_to_free := dmul s value (ct_imr (c_spec c)) in
  _ <~ alift (debug_assert dbg (0 <? margin_to_free) PMarginToFreeDebug) ;;
  _ <~ pay WALLET POSITION_MARGIN margin_to_free ;;
  if 0 <? fees' then
    _ <~ pay FEE WALLET fees' ;;
    aret {| pi_qty := qty'; pi_entry := entry; pi_fees := 0 |}
  else
    aret {| pi_qty := qty'; pi_entry := entry; pi_fees := fees' |}.

(** src/position.rs:85-260, [change_position]. *)
Definition a_flip (c : config) (inner : position_inner) (qty price : Z) (long : bool) (fees : Z) : am position_inner :=
  let rest := qty - pi_qty inner in
  i <~ a_decrease_contracts c inner (pi_qty inner) price long fees ;;
  _ <~ alift (assert (pi_qty i =? 0) PFlipQty) ;;
  left <~ bal POSITION_MARGIN ;;
  _ <~ alift (assert (left =? 0) PFlipMargin) ;;
  a_inner_new c rest price 0.
Definition a_close (c : config) (inner : position_inner) (qty price : Z) (long : bool) (fees : Z) : am position :=
  _ <~ a_decrease_contracts c inner qty price long fees ;;
  _ <~ adebug (c_dbg c) (left <~ bal POSITION_MARGIN ;; aret (left =? 0)) PCloseMarginDebug ;;
  aret Neutral.
Definition a_change_position (c : config) (pos : position) (qty price : Z) (sd : side) (fees : Z) : am position :=
  let dbg := c_dbg c in
  _ <~ alift (debug_assert dbg (0 <? qty) PFillQtyPosDebug) ;;
  match pos with
  | Neutral =>
      _ <~ adebug dbg (left <~ bal POSITION_MARGIN ;; aret (left =? 0)) PNeutralMarginDebug ;;
      i <~ a_inner_new c qty price fees ;;
      match sd with Buy => aret (Long i) | Sell => aret (Short i) end
  | Long inner =>
      match sd with
      | Buy => i <~ a_increase_contracts c inner qty price fees ;; aret (Long i)
      | Sell =>
          match qty ?= pi_qty inner with
          | Lt => i <~ a_decrease_contracts c inner qty price true fees ;; aret (Long i)
          | Eq => a_close c inner qty price true fees
          | Gt => i <~ a_flip c inner qty price true fees ;; aret (Short i)
          end
      end
  | Short inner =>
      match sd with
      | Buy =>
          match qty ?= pi_qty inner with
          | Lt => i <~ a_decrease_contracts c inner qty price false fees ;; aret (Short i)
          | Eq => a_close c inner qty price false fees
          | Gt => i <~ a_flip c inner qty price false fees ;; aret (Long i)
          end
      | Sell => i <~ a_increase_contracts c inner qty price fees ;; aret (Short i)
      end
  end.

(** ** Exchange *)
(** src/exchange.rs:694-710, [user_balances]. *)
Definition a_balances : am user_balances :=
  w <~ bal WALLET ;;
  p <~ bal POSITION_MARGIN ;;
  m <~ bal ORDER_MARGIN ;;
  aret {| ub_wallet := w; ub_pm := p; ub_om := m |}.
(** src/exchange.rs:159-163, [fees_paid]. *)
Definition a_fees_paid : am Z := bal FEE.
(** src/utils.rs:44-55. *)
Definition a_assert_wallet : am unit :=
  w <~ bal WALLET ;; alift (assert (0 <=? w) PWalletNegative).
(** The condition [if active_limit_orders.is_empty() { order margin is zero } else { true }]. *)
Definition a_empty_margin (book : list limit_order) : am bool :=
  match book with [] => m <~ bal ORDER_MARGIN ;; aret (m =? 0) | _ => aret true end.

(** src/exchange.rs:279-302, [settle_filled_market_order]. *)
Definition a_settle (c : config) (e : exchange) (o : filled_market) : am exchange :=
  let s := c_scale c in
  let qty := fm_qty o in
  let price := fm_avg o in
  _ <~ alift (assert (0 <? qty) PSettleQty) ;;
  _ <~ alift (assert (0 <? price) PSettlePrice) ;;
  value <~ alift (convert_from (c_kind c) s qty price) ;;
  let fees := dmul s value (ct_taker (c_spec c)) in
  pos <~ a_change_position c (ex_pos e) qty price (fm_side o) fees ;;
  let t1 := log_market_order_fill (ex_trk e) in
  t2 <~ alift (log_trade c t1 (fm_side o) price qty) ;;
  aret (set_trk (set_pos e pos) t2).

(** src/exchange.rs:237-277, [submit_market_order]: errors of the two balances are returned. *)
Definition a_submit_market (c : config) (e : exchange) (o : new_market) : am (exchange * result error filled_market) :=
  let e1 := set_trk e (log_market_order_submission (ex_trk e)) in
  v <~ alift (validate_order_quantity (ct_qf (c_spec c)) (nm_qty o)) ;;
  match v with
  | Err err => aret (e1, Err (EOrder err))
  | Ok _ =>
      let id := ex_next_id e1 in
      let e2 := set_next_id e1 (ex_next_id e1 + 1) in
      let ts := ms_ts (ex_ms e2) in
      let fill_price := match nm_side o with Buy => ms_ask (ex_ms e2) | Sell => ms_bid (ex_ms e2) end in
      rp <~ ask POSITION_MARGIN ;;
      match rp with
      | Err err => aret (e2, Err err)
      | Ok position_margin =>
          rw <~ ask WALLET ;;
          match rw with
          | Err err => aret (e2, Err err)
          | Ok wallet =>
              r <~ alift (check_market_order c (ex_pos e2) position_margin (nm_side o) (nm_qty o) fill_price wallet) ;;
              match r with
              | Err err => aret (e2, Err (ERisk err))
              | Ok _ =>
                  let filled := market_into_filled o id ts fill_price ts in
                  e3 <~ a_settle c e2 filled ;;
                  aret (e3, Ok filled)
              end
          end
      end
  end.

(** src/exchange.rs:213-227, [liquidate]. *)
Definition a_liquidate (c : config) (e : exchange) : am exchange :=
  order <~ alift (match ex_pos e with
                  | Long i => match market_new Sell (pi_qty i) 0 with
                              | Ok o => Done o | Err _ => Panic PLiquidateOrder end
                  | Short i => match market_new Buy (pi_qty i) 0 with
                               | Ok o => Done o | Err _ => Panic PLiquidateOrder end
                  | Neutral => Panic PLiquidateNeutral
                  end) ;;
  '(e1, r) <~ a_submit_market c e order ;;
  match r with
  | Ok _ => aret e1
  | Err _ => alift (Panic PLiquidateSubmit)
  end.

(** src/exchange.rs:426-480, [append_limit_order]. *)
Definition a_append (c : config) (e : exchange) (o : limit_order) : am (exchange * result error unit) :=
  '(om', r) <~ alift (om_update (c_max c) (ex_om e) o) ;;
  let e1 := set_om e om' in
  match r with
  | Err err => aret (e1, Err err)
  | Ok _ =>
      match book_insert active_capacity (ex_active e1) o with
      | (act', Err err) => aret (set_active e1 act', Err err)
      | (act', Ok _) =>
          let e2 := set_active e1 act' in
          new_om <~ alift (computed_order_margin c e2) ;;
          old_om <~ bal ORDER_MARGIN ;;
          match new_om ?= old_om with
          | Eq => aret (e2, Ok tt)
          | cmp =>
              _ <~ pay ORDER_MARGIN WALLET (match cmp with Gt => new_om - old_om | _ => old_om - new_om end) ;;
              _ <~ alift (assert (orders_eqb (ex_om e2) (ex_active e2)) PAppendBooks) ;;
              b <~ a_empty_margin (ex_active e2) ;;
              _ <~ alift (assert b PAppendEmptyMargin) ;;
              _ <~ a_assert_wallet ;;
              aret (e2, Ok tt)
          end
      end
  end.

(** src/exchange.rs:317-374, [submit_limit_order]: an error of the balance is returned. *)
Definition a_submit_limit (c : config) (e : exchange) (o : new_limit) : am (exchange * result error limit_order) :=
  let e1 := set_trk e (log_limit_order_submission (ex_trk e)) in
  v <~ alift (validate_order_quantity (ct_qf (c_spec c)) (nl_rem o)) ;;
  match v with
  | Err err => aret (e1, Err (EOrder err))
  | Ok _ =>
      p <~ alift (validate_limit_price (c_scale c) (ct_pf (c_spec c)) (nl_price o) (mid_price (ex_ms e1))) ;;
      match p with
      | Err err => aret (e1, Err (EOrder err))
      | Ok _ =>
          let order := limit_into_pending o (ex_next_id e1) (ms_ts (ex_ms e1)) in
          let e2 := set_next_id e1 (ex_next_id e1 + 1) in
          rw <~ ask WALLET ;;
          match rw with
          | Err err => aret (e2, Err err)
          | Ok wallet =>
              r <~ alift (check_limit_order c (ex_pos e2) order wallet (ex_om e2)) ;;
              match r with
              | Err err => aret (e2, Err (ERisk err))
              | Ok _ =>
                  if marketable (ex_ms e2) order
                  then aret (e2, Err (EOrder GoodTillCrossingRejectedOrder))
                  else
                    '(e3, x) <~ a_append c e2 order ;;
                    match x with
                    | Err err => aret (e3, Err err)
                    | Ok _ => aret (e3, Ok order)
                    end
              end
          end
      end
  end.

(** src/exchange.rs:484-549, [cancel_limit_order]. *)
Definition a_cancel (c : config) (e : exchange) (by_ : cancel_by) : am (exchange * result error limit_order) :=
  old_om <~ bal ORDER_MARGIN ;;
  comp <~ alift (computed_order_margin c e) ;;
  _ <~ alift (assert (old_om =? comp) PCancelMargin) ;;
  match by_, (match by_ with
              | ByOrderId id => remove_by_order_id (ex_active e) id
              | ByUserOrderId uid => remove_by_user_order_id (ex_active e) uid
              end) with
  | ByOrderId id, None =>
      aret (e, Err (if id <? ex_next_id e then EOrderNoLongerActive else EOrderIdNotFound id))
  | ByUserOrderId _, None => aret (e, Err EUserOrderIdNotFound)
  | _, Some (removed, act') =>
      let e1 := set_active e act' in
      om' <~ alift (om_remove (ex_om e1) by_) ;;
      let e2 := set_om e1 om' in
      new_om <~ alift (computed_order_margin c e2) ;;
      _ <~ alift (assert (new_om <=? old_om) PCancelMarginGrows) ;;
      _ <~ (if new_om <? old_om then pay WALLET ORDER_MARGIN (old_om - new_om) else aret tt) ;;
      let e4 := set_trk e2 (log_limit_order_cancellation (ex_trk e2)) in
      _ <~ alift (assert (orders_eqb (ex_om e4) (ex_active e4)) PCancelBooks) ;;
      b <~ a_empty_margin (ex_active e4) ;;
      _ <~ alift (assert b PCancelEmptyMargin) ;;
      aret (e4, Ok removed)
  end.

(** src/exchange.rs:382-420, [amend_limit_order]. *)
Definition a_amend (c : config) (e : exchange) (id : Z) (new_order : new_limit) : am (exchange * result error limit_order) :=
  match get_by_id (ex_active e) id with
  | None => aret (e, Err (if id <? ex_next_id e then EOrderNoLongerActive else EOrderIdNotFound id))
  | Some existing =>
      total <~ alift (lo_total_quantity existing) ;;
      let qty_delta := nl_rem new_order - total in
      let new_leaves := lo_rem existing + qty_delta in
      if new_leaves <=? 0 then
        '(e1, r) <~ a_cancel c e (ByOrderId id) ;;
        match r with
        | Ok _ => aret (e1, Err EAmendQtyAlreadyFilled)
        | Err _ => alift (Panic PAmendCancel)
        end
      else
        new_order' <~ alift (set_remaining_quantity new_order new_leaves) ;;
        '(e1, r) <~ a_cancel c e (ByOrderId id) ;;
        match r with
        | Err err => aret (e1, Err err)
        | Ok _ => a_submit_limit c e1 new_order'
        end
  end.

(** The body of the loop in src/exchange.rs:582-658. *)
Definition a_fill_one (c : config) (u : market_update) (e : exchange) (ids : list Z) (o : limit_order)
  : am (exchange * list Z * limit_order) :=
  let s := c_scale c in
  let dbg := c_dbg c in
  f <~ alift (limit_order_filled dbg u o) ;;
  match f with
  | None => aret (e, ids, o)
  | Some q =>
      _ <~ alift (debug_assert dbg (0 <? q) PFilledQtyDebug) ;;
      old_om <~ bal ORDER_MARGIN ;;
      _ <~ alift (debug_assert_m dbg (comp <- computed_order_margin c e ;; Done (old_om =? comp)) PFillMarginDebug) ;;
      '(o', filled) <~ alift (order_fill s o q (update_ts u)) ;;
      '(e1, ids1) <~ alift (match filled with
                            | Some fo =>
                                let t1 := log_limit_order_fill (ex_trk e) true in
                                om' <- om_remove (ex_om e) (ByOrderId (lo_id o')) ;;
                                Done (set_updates (set_om (set_trk e t1) om') (ex_updates e ++ [FullyFilled fo]),
                                      ids ++ [lo_id o'])
                            | None =>
                                _ <- debug_assert dbg (0 <? lo_rem o') PFillRemDebug ;;
                                let t1 := log_limit_order_fill (ex_trk e) false in
                                '(om', r) <- om_update (c_max c) (ex_om e) o' ;;
                                match r with
                                | Err _ => Panic PFillUpdate
                                | Ok _ =>
                                    Done (set_updates (set_om (set_trk e t1) om')
                                            (ex_updates e ++ [PartiallyFilled o']), ids)
                                end
                            end) ;;
      value <~ alift (convert_from (c_kind c) s q (lo_price o')) ;;
      let fees := dmul s value (ct_maker (c_spec c)) in
      pos <~ a_change_position c (ex_pos e1) q (lo_price o') (lo_side o') fees ;;
      let e2 := set_pos e1 pos in
      t2 <~ alift (log_trade c (ex_trk e2) (lo_side o') (lo_price o') q) ;;
      let e3 := set_trk e2 t2 in
      new_om <~ alift (computed_order_margin c e3) ;;
      _ <~ alift (debug_assert dbg (new_om <=? old_om) PFillMarginGrowsDebug) ;;
      _ <~ (if new_om <? old_om then pay WALLET ORDER_MARGIN (old_om - new_om) else aret tt) ;;
      aret (e3, ids1, o')
  end.

(** The loop src/exchange.rs:582-658 over the arena. *)
Fixpoint a_fill_loop (c : config) (u : market_update) (e : exchange) (ids : list Z) (todo : list limit_order)
  : am (exchange * list Z * list limit_order) :=
  match todo with
  | [] => aret (e, ids, [])
  | o :: rest =>
      '(e1, ids1, o') <~ a_fill_one c u e ids o ;;
      '(e2, ids2, rest') <~ a_fill_loop c u e1 ids1 rest ;;
      aret (e2, ids2, o' :: rest')
  end.

(** src/exchange.rs:566-690, [check_active_orders]. *)
Definition a_check (c : config) (e : exchange) (u : market_update) : am exchange :=
  let dbg := c_dbg c in
  let e0 := set_updates e [] in
  if negb (can_fill u) then aret e0
  else
    _ <~ alift (debug_assert dbg (orders_eqb (ex_om e0) (ex_active e0)) PBooksDebug) ;;
    '(e1, ids, arena) <~ a_fill_loop c u e0 [] (ex_active e0) ;;
    act <~ alift (remove_executed ids arena) ;;
    let e2 := set_active e1 act in
    _ <~ alift (debug_assert dbg (orders_eqb (ex_om e2) (ex_active e2)) PBooksDebug) ;;
    _ <~ adebug dbg (a_empty_margin (ex_active e2)) PEmptyMarginDebug ;;
    _ <~ adebug dbg (m <~ bal ORDER_MARGIN ;; comp <~ alift (computed_order_margin c e2) ;; aret (m =? comp)) PEndMarginDebug ;;
    _ <~ a_assert_wallet ;;
    aret e2.

(** src/exchange.rs:175-210, [update_state]. *)
Definition a_update (c : config) (e : exchange) (u : market_update) : am (exchange * result error (list order_update)) :=
  ms <~ alift (market_update_state (c_dbg c) (ct_pf (c_spec c)) u (ex_ms e)) ;;
  let e1 := set_ms e ms in
  let e2 := set_trk e1 (tracker_update (ex_trk e1) (ex_ms e1)) in
  let '(trig, fire) := should_trigger (ex_trig e2) (update_ts u) in
  let e3 := set_trig e2 trig in
  e4 <~ (if fire then b <~ a_balances ;; aret (set_trk e3 (tracker_sample (ex_trk e3) (balances_sum b))) else aret e3) ;;
  match check_maintenance_margin c (ms_bid (ex_ms e4)) (ms_ask (ex_ms e4)) (ex_pos e4) with
  | Err err =>
      e5 <~ a_liquidate c e4 ;;
      aret (e5, Err (ERisk err))
  | Ok _ =>
      e5 <~ a_check c e4 u ;;
      aret (e5, Ok (ex_updates e5))
  end.

(** One call of the public API, as in Exchange.v. *)
Definition a_out {X} (f : X -> out) (m : am (exchange * result error X)) : am (exchange * result error out) :=
  '(e, r) <~ m ;; aret (e, map_result f r).
Definition a_step (c : config) (e : exchange) (o : op) : am (exchange * result error out) :=
  match o with
  | OpUpdate r =>
      u <~ alift (build_update (c_dbg c) r) ;;
      a_out OutUpdates (a_update c e u)
  | OpMarket sd qty uid =>
      match market_new sd qty uid with
      | Err err => aret (e, Err (EOrder err))
      | Ok m => a_out OutMarket (a_submit_market c e m)
      end
  | OpLimit sd price qty uid =>
      match limit_new sd price qty uid with
      | Err err => aret (e, Err (EOrder err))
      | Ok l => a_out OutLimit (a_submit_limit c e l)
      end
  | OpCancel by_ => a_out OutLimit (a_cancel c e by_)
  | OpAmend id sd price qty uid =>
      match limit_new sd price qty uid with
      | Err err => aret (e, Err (EOrder err))
      | Ok l => a_out OutLimit (a_amend c e id l)
      end
  | OpCheck r =>
      u <~ alift (build_update (c_dbg c) r) ;;
      e1 <~ a_check c e u ;;
      aret (e1, Ok OutUnit)
  end.
Fixpoint a_run (c : config) (e : exchange) (ops : list op) : am (exchange * list (result error out)) :=
  match ops with
  | [] => aret (e, [])
  | o :: rest =>
      '(e1, r) <~ a_step c e o ;;
      '(e2, rs) <~ a_run c e1 rest ;;
      aret (e2, r :: rs)
  end.

(** src/exchange.rs:122-146, [Exchange::new] with a [FullAccountTracker]; [ex_acc] gets a value that is never looked at. *)
Definition unused : accounts :=
  let z := {| ta_debits := 0; ta_credits := 0 |} in
  {| ac_wallet := z; ac_om := z; ac_pm := z; ac_fee := z; ac_broker := z; ac_treasury := z |}.
Definition a_init (c : config) : outcome (A * exchange) :=
  t <- tracker_new (c_start c) ;;
  a <- a_new L (c_start c) ;;
  Done (a, {| ex_ms := market_state_default; ex_trk := t; ex_next_id := 0; ex_acc := unused;
              ex_pos := Neutral; ex_active := []; ex_om := [];
              ex_trig := trigger_new (c_sample_s c * 1000000000); ex_updates := [] |}).
(** A fresh exchange and the calls made to it. *)
Definition a_play (c : config) (ops : list op) : outcome (A * (exchange * list (result error out))) :=
  '(a, e) <- a_init c ;; a_run c e ops a.
End AnyAccounting.

(** src/accounting/in_memory_accounting.rs, as modelled in Accounting.v; no method returns an error. *)
Definition in_memory (dbg : bool) : accounting accounts :=
  {| a_new := accounting_new dbg;
     a_transfer := fun acc tx => acc' <- create_margin_transfer dbg acc tx ;; Done (acc', Ok tt);
     a_balance := fun acc id => Done (Ok (margin_balance_of acc id));
     a_expect := fun _ => PLiquidateSubmit |}.
(** src/mock_exchange.rs:98-124, [MockTransactionAccounting]: no state, transfers do nothing, balances are zero. *)
Definition mock : accounting unit :=
  {| a_new := fun _ => Done tt;
     a_transfer := fun a _ => Done (a, Ok tt);
     a_balance := fun _ _ => Done (Ok 0);
     a_expect := fun _ => PLiquidateSubmit |}.
