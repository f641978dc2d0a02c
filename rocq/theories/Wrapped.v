(** The exchange of a release build, where the totals of the accounts wrap around.  The functions of [Fixed] that touch
    the accounts are repeated with the ledger as a parameter; with the ledger of [Fixed] they are the functions of
    [Fixed], see C68_same_functions. *)
From Verif Require Import Base Types Filters Accounting Currency Position OrderBook OrderMargin
  Risk MarketUpdate Tracker Exchange Width Fixed.

(** ** Ledgers *)
(** src/accounting/mod.rs:13-29, the trait [TransactionAccounting] together with the transaction it is given. *)
Record ledger := {
  l_new : Z -> checked accounts;
  l_transfer : accounts -> account_id -> account_id -> Z -> checked accounts;
  l_balance : accounts -> account_id -> checked Z
}.

(** The ledger of [Fixed]: a total that does not fit is an overflow. *)
Definition checked_ledger (w : Z) (dbg : bool) : ledger :=
  {| l_new := w_accounting_new w dbg; l_transfer := w_transfer w dbg; l_balance := w_margin_balance_of w |}.

(** [+] and [-] on [w] bit integers in a release build. *)
Definition wrap (w z : Z) : Z := (z + 2 ^ (w - 1)) mod 2 ^ w - 2 ^ (w - 1).

(** src/accounting/account.rs:46-49 *)
Definition v_balance (w : Z) (acc : accounts) (id : account_id) : Z :=
  let a := get_account acc id in wrap w (ta_debits a - ta_credits a).

(** src/accounting/in_memory_accounting.rs:58-67.  The checked difference is the balance of the treasury, see
    [v_transfer]. *)
Definition v_accounting_new (w start : Z) : checked accounts :=
  let z := {| ta_debits := 0; ta_credits := 0 |} in
  debits <~ cadd w 0 start ;;
  credits <~ cadd w 0 start ;;
  _ <~ csub w 0 start ;;
  ret {| ac_wallet := {| ta_debits := debits; ta_credits := 0 |}; ac_om := z; ac_pm := z; ac_fee := z;
         ac_broker := z; ac_treasury := {| ta_debits := 0; ta_credits := credits |} |}.

(** src/accounting/in_memory_accounting.rs:69-93, src/accounting/account.rs:36-44.  The totals wrap around.  The two
    checked sums are not computed by the code: they say when a balance itself no longer fits, what happens then is not
    modelled. *)
Definition v_transfer (w : Z) (acc : accounts) (d c : account_id) (amt : Z) : checked accounts :=
  tx <~ Fine (transaction_new d c amt) ;;
  let da := get_account acc (tx_debit tx) in
  let ca := get_account acc (tx_credit tx) in
  _ <~ cadd w (v_balance w acc (tx_debit tx)) (tx_amount tx) ;;
  _ <~ csub w (v_balance w acc (tx_credit tx)) (tx_amount tx) ;;
  let credits := wrap w (ta_credits ca + tx_amount tx) in
  let debits := wrap w (ta_debits da + tx_amount tx) in
  let acc1 := set_account acc (tx_credit tx) {| ta_debits := ta_debits ca; ta_credits := credits |} in
  ret (set_account acc1 (tx_debit tx) {| ta_debits := debits; ta_credits := ta_credits da |}).

Definition wrapping_ledger (w : Z) : ledger :=
  {| l_new := v_accounting_new w; l_transfer := v_transfer w; l_balance := fun acc id => ret (v_balance w acc id) |}.

(** ** Position *)
Definition g_inner_new (L : ledger) (w : Z) (c : config) (acc : accounts) (qty price fees : Z)
  : checked (position_inner * accounts) :=
  let s := c_scale c in
  _ <~ Fine (assert (0 <? qty) PNewPosQty) ;;
  _ <~ Fine (assert (0 <? price) PNewPosPrice) ;;
  value <~ w_convert_from w (c_kind c) s qty price ;;
  margin <~ cmul w s value (ct_imr (c_spec c)) ;;
  acc1 <~ l_transfer L acc POSITION_MARGIN WALLET margin ;;
  ret ({| pi_qty := qty; pi_entry := price; pi_fees := fees |}, acc1).

Definition g_increase_contracts (L : ledger) (w : Z) (c : config) (p : position_inner) (acc : accounts)
  (qty price fees : Z) : checked (position_inner * accounts) :=
  let s := c_scale c in
  _ <~ Fine (assert (0 <? qty) PIncQty) ;;
  _ <~ Fine (assert (0 <? price) PIncPrice) ;;
  value <~ w_convert_from w (c_kind c) s qty price ;;
  entry <~ w_new_weighted_price w s (pi_entry p) (pi_qty p) price qty ;;
  qty' <~ cadd w (pi_qty p) qty ;;
  fees' <~ cadd w (pi_fees p) fees ;;
  margin <~ cmul w s value (ct_imr (c_spec c)) ;;
  acc1 <~ l_transfer L acc POSITION_MARGIN WALLET margin ;;
  ret ({| pi_qty := qty'; pi_entry := entry; pi_fees := fees' |}, acc1).

Definition g_decrease_contracts (L : ledger) (w : Z) (c : config) (p : position_inner) (acc : accounts)
  (qty price : Z) (long : bool) (fees : Z) : checked (position_inner * accounts) :=
  let s := c_scale c in
  let dbg := c_dbg c in
  _ <~ Fine (assert (0 <? qty) PDecQty) ;;
  _ <~ Fine (assert (qty <=? pi_qty p) PDecQtyTooLarge) ;;
  let entry := pi_entry p in
  qty' <~ csub w (pi_qty p) qty ;;
  fees' <~ cadd w (pi_fees p) fees ;;
  _ <~ Fine (debug_assert dbg (0 <=? qty') PDecQtyNegDebug) ;;
  signed <~ (if long then ret qty else cneg w qty) ;;
  profit <~ w_pnl w (c_kind c) s entry price signed ;;
  acc1 <~ match profit ?= 0 with
          | Gt => l_transfer L acc WALLET TREASURY profit
          | Lt => loss <~ cabs w profit ;; l_transfer L acc TREASURY WALLET loss
          | Eq => ret acc
          end ;;
  value <~ w_convert_from w (c_kind c) s qty entry ;;
  margin_to_free <~ cmul w s value (ct_imr (c_spec c)) ;;
  _ <~ Fine (debug_assert dbg (0 <? margin_to_free) PMarginToFreeDebug) ;;
  acc2 <~ l_transfer L acc1 WALLET POSITION_MARGIN margin_to_free ;;
  if 0 <? fees' then
    acc3 <~ l_transfer L acc2 FEE WALLET fees' ;;
    ret ({| pi_qty := qty'; pi_entry := entry; pi_fees := 0 |}, acc3)
  else
    ret ({| pi_qty := qty'; pi_entry := entry; pi_fees := fees' |}, acc2).

Definition g_no_position_margin (L : ledger) (dbg : bool) (acc : accounts) (p : panic_site) : checked unit :=
  cdebug_assert_m dbg (m <~ l_balance L acc POSITION_MARGIN ;; ret (m =? 0)) p.

Definition g_change_position (L : ledger) (w : Z) (c : config) (pos : position) (acc : accounts)
  (qty price : Z) (sd : side) (fees : Z) : checked (position * accounts) :=
  let dbg := c_dbg c in
  _ <~ Fine (debug_assert dbg (0 <? qty) PFillQtyPosDebug) ;;
  match pos with
  | Neutral =>
      _ <~ g_no_position_margin L dbg acc PNeutralMarginDebug ;;
      '(i, acc1) <~ g_inner_new L w c acc qty price fees ;;
      match sd with
      | Buy => ret (Long i, acc1)
      | Sell => ret (Short i, acc1)
      end
  | Long inner =>
      match sd with
      | Buy =>
          '(i, acc1) <~ g_increase_contracts L w c inner acc qty price fees ;;
          ret (Long i, acc1)
      | Sell =>
          match qty ?= pi_qty inner with
          | Lt =>
              '(i, acc1) <~ g_decrease_contracts L w c inner acc qty price true fees ;;
              ret (Long i, acc1)
          | Eq =>
              '(i, acc1) <~ g_decrease_contracts L w c inner acc qty price true fees ;;
              _ <~ g_no_position_margin L dbg acc1 PCloseMarginDebug ;;
              ret (Neutral, acc1)
          | Gt =>
              new_short_qty <~ csub w qty (pi_qty inner) ;;
              '(i, acc1) <~ g_decrease_contracts L w c inner acc (pi_qty inner) price true fees ;;
              _ <~ Fine (assert (pi_qty i =? 0) PFlipQty) ;;
              left <~ l_balance L acc1 POSITION_MARGIN ;;
              _ <~ Fine (assert (left =? 0) PFlipMargin) ;;
              '(j, acc2) <~ g_inner_new L w c acc1 new_short_qty price 0 ;;
              ret (Short j, acc2)
          end
      end
  | Short inner =>
      match sd with
      | Buy =>
          match qty ?= pi_qty inner with
          | Lt =>
              '(i, acc1) <~ g_decrease_contracts L w c inner acc qty price false fees ;;
              ret (Short i, acc1)
          | Eq =>
              '(i, acc1) <~ g_decrease_contracts L w c inner acc qty price false fees ;;
              _ <~ g_no_position_margin L dbg acc1 PCloseMarginDebug ;;
              ret (Neutral, acc1)
          | Gt =>
              new_long_qty <~ csub w qty (pi_qty inner) ;;
              '(i, acc1) <~ g_decrease_contracts L w c inner acc (pi_qty inner) price false fees ;;
              _ <~ Fine (assert (pi_qty i =? 0) PFlipQty) ;;
              left <~ l_balance L acc1 POSITION_MARGIN ;;
              _ <~ Fine (assert (left =? 0) PFlipMargin) ;;
              '(j, acc2) <~ g_inner_new L w c acc1 new_long_qty price 0 ;;
              ret (Long j, acc2)
          end
      | Sell =>
          '(i, acc1) <~ g_increase_contracts L w c inner acc qty price fees ;;
          ret (Short i, acc1)
      end
  end.

(** ** Exchange *)
Definition g_exchange_new (L : ledger) (c : config) (t : tracker) : checked exchange :=
  acc <~ l_new L (c_start c) ;;
  interval <~ chk 64 (c_sample_s c * 1000000000) ;;
  ret {| ex_ms := market_state_default; ex_trk := t; ex_next_id := 0; ex_acc := acc;
         ex_pos := Neutral; ex_active := []; ex_om := [];
         ex_trig := trigger_new interval; ex_updates := [] |}.

Definition g_balances (L : ledger) (e : exchange) : checked user_balances :=
  a <~ l_balance L (ex_acc e) WALLET ;;
  b <~ l_balance L (ex_acc e) POSITION_MARGIN ;;
  m <~ l_balance L (ex_acc e) ORDER_MARGIN ;;
  ret {| ub_wallet := a; ub_pm := b; ub_om := m |}.

Definition g_assert_user_wallet_balance (L : ledger) (acc : accounts) : checked unit :=
  wallet <~ l_balance L acc WALLET ;; Fine (assert (0 <=? wallet) PWalletNegative).

Definition g_empty_margin (L : ledger) (e : exchange) : checked bool :=
  match ex_active e with
  | [] => m <~ l_balance L (ex_acc e) ORDER_MARGIN ;; ret (m =? 0)
  | _ => ret true
  end.

Definition g_settle_filled_market_order (L : ledger) (w : Z) (c : config) (e : exchange) (o : filled_market)
  : checked exchange :=
  let s := c_scale c in
  let qty := fm_qty o in
  let price := fm_avg o in
  _ <~ Fine (assert (0 <? qty) PSettleQty) ;;
  _ <~ Fine (assert (0 <? price) PSettlePrice) ;;
  value <~ w_convert_from w (c_kind c) s qty price ;;
  fees <~ cmul w s value (ct_taker (c_spec c)) ;;
  '(pos, acc) <~ g_change_position L w c (ex_pos e) (ex_acc e) qty price (fm_side o) fees ;;
  t1 <~ w_log_market_order_fill w (ex_trk e) ;;
  t2 <~ w_log_trade w c t1 (fm_side o) price qty ;;
  ret (set_trk (set_acc (set_pos e pos) acc) t2).

Definition g_submit_market_order (L : ledger) (w : Z) (c : config) (e : exchange) (o : new_market)
  : checked (exchange * result error filled_market) :=
  t1 <~ w_log_market_order_submission w (ex_trk e) ;;
  let e1 := set_trk e t1 in
  v <~ w_validate_order_quantity w (ct_qf (c_spec c)) (nm_qty o) ;;
  match v with
  | Err err => ret (e1, Err (EOrder err))
  | Ok _ =>
      let id := ex_next_id e1 in
      next <~ count (ex_next_id e1 + 1) ;;
      let e2 := set_next_id e1 next in
      let ts := ms_ts (ex_ms e2) in
      let fill_price := match nm_side o with Buy => ms_ask (ex_ms e2) | Sell => ms_bid (ex_ms e2) end in
      position_margin <~ l_balance L (ex_acc e2) POSITION_MARGIN ;;
      wallet <~ l_balance L (ex_acc e2) WALLET ;;
      r <~ w_check_market_order w c (ex_pos e2) position_margin (nm_side o) (nm_qty o) fill_price wallet ;;
      match r with
      | Err err => ret (e2, Err (ERisk err))
      | Ok _ =>
          let filled := market_into_filled o id ts fill_price ts in
          e3 <~ g_settle_filled_market_order L w c e2 filled ;;
          ret (e3, Ok filled)
      end
  end.

Definition g_liquidate (L : ledger) (w : Z) (c : config) (e : exchange) : checked exchange :=
  order <~ Fine match ex_pos e with
                | Long i => match market_new Sell (pi_qty i) 0 with
                            | Ok o => Done o | Err _ => Panic PLiquidateOrder end
                | Short i => match market_new Buy (pi_qty i) 0 with
                             | Ok o => Done o | Err _ => Panic PLiquidateOrder end
                | Neutral => Panic PLiquidateNeutral
                end ;;
  '(e1, r) <~ g_submit_market_order L w c e order ;;
  match r with
  | Ok _ => ret e1
  | Err _ => Fine (Panic PLiquidateSubmit)
  end.

Definition g_append_limit_order (L : ledger) (w : Z) (c : config) (e : exchange) (o : limit_order)
  : checked (exchange * result error unit) :=
  '(om', r) <~ Fine (om_update (c_max c) (ex_om e) o) ;;
  let e1 := set_om e om' in
  match r with
  | Err err => ret (e1, Err err)
  | Ok _ =>
      match book_insert active_capacity (ex_active e1) o with
      | (act', Err err) => ret (set_active e1 act', Err err)
      | (act', Ok _) =>
          let e2 := set_active e1 act' in
          new_om <~ w_computed_order_margin w c e2 ;;
          old_om <~ l_balance L (ex_acc e2) ORDER_MARGIN ;;
          match new_om ?= old_om with
          | Eq => ret (e2, Ok tt)
          | cmp =>
              amt <~ match cmp with Gt => csub w new_om old_om | _ => csub w old_om new_om end ;;
              acc <~ l_transfer L (ex_acc e2) ORDER_MARGIN WALLET amt ;;
              let e3 := set_acc e2 acc in
              _ <~ Fine (assert (orders_eqb (ex_om e3) (ex_active e3)) PAppendBooks) ;;
              b <~ g_empty_margin L e3 ;;
              _ <~ Fine (assert b PAppendEmptyMargin) ;;
              _ <~ g_assert_user_wallet_balance L (ex_acc e3) ;;
              ret (e3, Ok tt)
          end
      end
  end.

Definition g_submit_limit_order (L : ledger) (w : Z) (c : config) (e : exchange) (o : new_limit)
  : checked (exchange * result error limit_order) :=
  t1 <~ w_log_limit_order_submission w (ex_trk e) ;;
  let e1 := set_trk e t1 in
  v <~ w_validate_order_quantity w (ct_qf (c_spec c)) (nl_rem o) ;;
  match v with
  | Err err => ret (e1, Err (EOrder err))
  | Ok _ =>
      mid <~ w_mid_price w (ex_ms e1) ;;
      p <~ w_validate_limit_price w (c_scale c) (ct_pf (c_spec c)) (nl_price o) mid ;;
      match p with
      | Err err => ret (e1, Err (EOrder err))
      | Ok _ =>
          let order := limit_into_pending o (ex_next_id e1) (ms_ts (ex_ms e1)) in
          next <~ count (ex_next_id e1 + 1) ;;
          let e2 := set_next_id e1 next in
          wallet <~ l_balance L (ex_acc e2) WALLET ;;
          r <~ w_check_limit_order w c (ex_pos e2) order wallet (ex_om e2) ;;
          match r with
          | Err err => ret (e2, Err (ERisk err))
          | Ok _ =>
              if marketable (ex_ms e2) order
              then ret (e2, Err (EOrder GoodTillCrossingRejectedOrder))
              else
                '(e3, a) <~ g_append_limit_order L w c e2 order ;;
                match a with
                | Err err => ret (e3, Err err)
                | Ok _ => ret (e3, Ok order)
                end
          end
      end
  end.

Definition g_cancel_limit_order (L : ledger) (w : Z) (c : config) (e : exchange) (by_ : cancel_by)
  : checked (exchange * result error limit_order) :=
  old_om <~ l_balance L (ex_acc e) ORDER_MARGIN ;;
  comp <~ w_computed_order_margin w c e ;;
  _ <~ Fine (assert (old_om =? comp) PCancelMargin) ;;
  match by_, (match by_ with
              | ByOrderId id => remove_by_order_id (ex_active e) id
              | ByUserOrderId uid => remove_by_user_order_id (ex_active e) uid
              end) with
  | ByOrderId id, None =>
      ret (e, Err (if id <? ex_next_id e then EOrderNoLongerActive else EOrderIdNotFound id))
  | ByUserOrderId _, None => ret (e, Err EUserOrderIdNotFound)
  | _, Some (removed, act') =>
      let e1 := set_active e act' in
      om' <~ Fine (om_remove (ex_om e1) by_) ;;
      let e2 := set_om e1 om' in
      new_om <~ w_computed_order_margin w c e2 ;;
      _ <~ Fine (assert (new_om <=? old_om) PCancelMarginGrows) ;;
      e3 <~ (if new_om <? old_om then
               delta <~ csub w old_om new_om ;;
               acc <~ l_transfer L (ex_acc e2) WALLET ORDER_MARGIN delta ;;
               ret (set_acc e2 acc)
             else ret e2) ;;
      t <~ w_log_limit_order_cancellation w (ex_trk e3) ;;
      let e4 := set_trk e3 t in
      _ <~ Fine (assert (orders_eqb (ex_om e4) (ex_active e4)) PCancelBooks) ;;
      b <~ g_empty_margin L e4 ;;
      _ <~ Fine (assert b PCancelEmptyMargin) ;;
      ret (e4, Ok removed)
  end.

Definition g_amend_limit_order (L : ledger) (w : Z) (c : config) (e : exchange) (id : Z) (new_order : new_limit)
  : checked (exchange * result error limit_order) :=
  match get_by_id (ex_active e) id with
  | None => ret (e, Err (if id <? ex_next_id e then EOrderNoLongerActive else EOrderIdNotFound id))
  | Some existing =>
      total <~ w_lo_total_quantity w existing ;;
      qty_delta <~ csub w (nl_rem new_order) total ;;
      new_leaves <~ cadd w (lo_rem existing) qty_delta ;;
      if new_leaves <=? 0 then
        '(e1, r) <~ g_cancel_limit_order L w c e (ByOrderId id) ;;
        match r with
        | Ok _ => ret (e1, Err EAmendQtyAlreadyFilled)
        | Err _ => Fine (Panic PAmendCancel)
        end
      else
        new_order' <~ Fine (set_remaining_quantity new_order new_leaves) ;;
        '(e1, r) <~ g_cancel_limit_order L w c e (ByOrderId id) ;;
        match r with
        | Err err => ret (e1, Err err)
        | Ok _ => g_submit_limit_order L w c e1 new_order'
        end
  end.

Definition g_fill_one (L : ledger) (w : Z) (c : config) (u : market_update) (e : exchange) (ids : list Z)
  (o : limit_order) : checked (exchange * list Z * limit_order) :=
  let s := c_scale c in
  let dbg := c_dbg c in
  f <~ Fine (limit_order_filled dbg u o) ;;
  match f with
  | None => ret (e, ids, o)
  | Some q =>
      _ <~ Fine (debug_assert dbg (0 <? q) PFilledQtyDebug) ;;
      old_om <~ l_balance L (ex_acc e) ORDER_MARGIN ;;
      _ <~ cdebug_assert_m dbg (comp <~ w_computed_order_margin w c e ;; ret (old_om =? comp)) PFillMarginDebug ;;
      '(o', filled) <~ w_order_fill w s o q (update_ts u) ;;
      '(e1, ids1) <~ match filled with
                     | Some fo =>
                         t1 <~ w_log_limit_order_fill w (ex_trk e) true ;;
                         om' <~ Fine (om_remove (ex_om e) (ByOrderId (lo_id o'))) ;;
                         ret (set_updates (set_om (set_trk e t1) om') (ex_updates e ++ [FullyFilled fo]),
                              ids ++ [lo_id o'])
                     | None =>
                         _ <~ Fine (debug_assert dbg (0 <? lo_rem o') PFillRemDebug) ;;
                         t1 <~ w_log_limit_order_fill w (ex_trk e) false ;;
                         '(om', r) <~ Fine (om_update (c_max c) (ex_om e) o') ;;
                         match r with
                         | Err _ => Fine (Panic PFillUpdate)
                         | Ok _ =>
                             ret (set_updates (set_om (set_trk e t1) om')
                                     (ex_updates e ++ [PartiallyFilled o']), ids)
                         end
                     end ;;
      value <~ w_convert_from w (c_kind c) s q (lo_price o') ;;
      fees <~ cmul w s value (ct_maker (c_spec c)) ;;
      '(pos, acc) <~ g_change_position L w c (ex_pos e1) (ex_acc e1) q (lo_price o') (lo_side o') fees ;;
      let e2 := set_acc (set_pos e1 pos) acc in
      t2 <~ w_log_trade w c (ex_trk e2) (lo_side o') (lo_price o') q ;;
      let e3 := set_trk e2 t2 in
      new_om <~ w_computed_order_margin w c e3 ;;
      _ <~ Fine (debug_assert dbg (new_om <=? old_om) PFillMarginGrowsDebug) ;;
      e4 <~ (if new_om <? old_om then
               delta <~ csub w old_om new_om ;;
               acc' <~ l_transfer L (ex_acc e3) WALLET ORDER_MARGIN delta ;;
               ret (set_acc e3 acc')
             else ret e3) ;;
      ret (e4, ids1, o')
  end.

Fixpoint g_fill_loop (L : ledger) (w : Z) (c : config) (u : market_update) (e : exchange) (ids : list Z)
  (todo : list limit_order) : checked (exchange * list Z * list limit_order) :=
  match todo with
  | [] => ret (e, ids, [])
  | o :: rest =>
      '(e1, ids1, o') <~ g_fill_one L w c u e ids o ;;
      '(e2, ids2, rest') <~ g_fill_loop L w c u e1 ids1 rest ;;
      ret (e2, ids2, o' :: rest')
  end.

Definition g_check_active_orders (L : ledger) (w : Z) (c : config) (e : exchange) (u : market_update)
  : checked exchange :=
  let dbg := c_dbg c in
  let e0 := set_updates e [] in
  if negb (can_fill u) then ret e0
  else
    _ <~ Fine (debug_assert dbg (orders_eqb (ex_om e0) (ex_active e0)) PBooksDebug) ;;
    '(e1, ids, arena) <~ g_fill_loop L w c u e0 [] (ex_active e0) ;;
    act <~ Fine (remove_executed ids arena) ;;
    let e2 := set_active e1 act in
    _ <~ Fine (debug_assert dbg (orders_eqb (ex_om e2) (ex_active e2)) PBooksDebug) ;;
    _ <~ cdebug_assert_m dbg (g_empty_margin L e2) PEmptyMarginDebug ;;
    _ <~ cdebug_assert_m dbg (m <~ l_balance L (ex_acc e2) ORDER_MARGIN ;;
                              comp <~ w_computed_order_margin w c e2 ;; ret (m =? comp)) PEndMarginDebug ;;
    _ <~ g_assert_user_wallet_balance L (ex_acc e2) ;;
    ret e2.

Definition g_update_state (L : ledger) (w : Z) (c : config) (e : exchange) (u : market_update)
  : checked (exchange * result error (list order_update)) :=
  ms <~ w_market_update_state w (c_dbg c) (ct_pf (c_spec c)) u (ex_ms e) ;;
  let e1 := set_ms e ms in
  t <~ w_tracker_update w (ex_trk e1) (ex_ms e1) ;;
  let e2 := set_trk e1 t in
  '(trig, fire) <~ w_should_trigger (ex_trig e2) (update_ts u) ;;
  let e3 := set_trig e2 trig in
  e4 <~ (if fire : bool then
           b <~ g_balances L e3 ;;
           _ <~ w_mid_price w (ex_ms e3) ;;
           sum <~ w_balances_sum w b ;;
           ret (set_trk e3 (tracker_sample (ex_trk e3) sum))
         else ret e3) ;;
  m <~ w_check_maintenance_margin w c (ms_bid (ex_ms e4)) (ms_ask (ex_ms e4)) (ex_pos e4) ;;
  match m with
  | Err err =>
      e5 <~ g_liquidate L w c e4 ;;
      ret (e5, Err (ERisk err))
  | Ok _ =>
      e5 <~ g_check_active_orders L w c e4 u ;;
      ret (e5, Ok (ex_updates e5))
  end.

Definition g_step (L : ledger) (w : Z) (c : config) (e : exchange) (o : op) : checked (exchange * result error out) :=
  match o with
  | OpUpdate r =>
      u <~ w_build_update w (c_dbg c) r ;;
      w_map_out OutUpdates (g_update_state L w c e u)
  | OpMarket sd qty uid =>
      match market_new sd qty uid with
      | Err err => ret (e, Err (EOrder err))
      | Ok m => w_map_out OutMarket (g_submit_market_order L w c e m)
      end
  | OpLimit sd price qty uid =>
      match limit_new sd price qty uid with
      | Err err => ret (e, Err (EOrder err))
      | Ok l => w_map_out OutLimit (g_submit_limit_order L w c e l)
      end
  | OpCancel by_ => w_map_out OutLimit (g_cancel_limit_order L w c e by_)
  | OpAmend id sd price qty uid =>
      match limit_new sd price qty uid with
      | Err err => ret (e, Err (EOrder err))
      | Ok l => w_map_out OutLimit (g_amend_limit_order L w c e id l)
      end
  | OpCheck r =>
      u <~ w_build_update w (c_dbg c) r ;;
      e1 <~ g_check_active_orders L w c e u ;;
      ret (e1, Ok OutUnit)
  end.

Fixpoint g_run (L : ledger) (w : Z) (c : config) (e : exchange) (ops : list op)
  : checked (exchange * list (result error out)) :=
  match ops with
  | [] => ret (e, [])
  | o :: rest =>
      '(e1, r) <~ g_step L w c e o ;;
      '(e2, rs) <~ g_run L w c e1 rest ;;
      ret (e2, r :: rs)
  end.

Definition g_init (L : ledger) (c : config) : checked exchange :=
  t <~ Fine (tracker_new (c_start c)) ;;
  g_exchange_new L c t.

(** The exchange of a release build. *)
Definition v_step (w : Z) : config -> exchange -> op -> checked (exchange * result error out) :=
  g_step (wrapping_ledger w) w.
Definition v_run (w : Z) : config -> exchange -> list op -> checked (exchange * list (result error out)) :=
  g_run (wrapping_ledger w) w.
Definition v_init (w : Z) : config -> checked exchange := g_init (wrapping_ledger w).
