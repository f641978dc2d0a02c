(** The numbers a history computes: exact overflow conditions.  For each function of the model there is a list of the results of all
    its arithmetic, up to the point where it returns or panics.  Widths play no part in it. *)
From Verif Require Import Base Types Filters Accounting Currency Position OrderBook OrderMargin
  Risk MarketUpdate Tracker Exchange Width Fixed Spec SpecFixed SpecFits.

(** [m], on [w] bit integers, overflows exactly when one of the numbers [l] does not fit, and otherwise does what [o] does. *)
Definition overflows_exactly {A} (w : Z) (m : checked A) (l : list number) (o : outcome A) : Prop :=
  (Forall (machine_integer w) l -> m = Fine o) /\ (~ Forall (machine_integer w) l -> m = Overflow).

(** ** Notation *)
(** What is computed with the result of [o]; nothing if [o] panics. *)
Definition given {A} (o : outcome A) (f : A -> list number) : list number :=
  match o with Done a => f a | Panic _ => [] end.
Notation "'need' n ;; r" := (n :: r) (at level 61, n at next level, r at level 61).
Notation "'needs' l ;; r" := (l ++ r) (at level 61, l at next level, r at level 61).
(** [b] is asserted. *)
Definition guarding (b : bool) (l : list number) : list number := if b then l else [].
Notation "'guard' b ;; r" := (guarding b r) (at level 61, b at next level, r at level 61).
(** [o] is computed, which needs [l]; [x] is its result. *)
Notation "x <-- o 'with' l ;; r" := (l ++ given o (fun x => r))
  (at level 61, o at next level, l at next level, right associativity).
Notation "x <-- o ;; r" := (given o (fun x => r)) (at level 61, o at next level, right associativity).
Notation "' pat <-- o 'with' l ;; r" := (l ++ given o (fun x => match x with pat => r end))
  (at level 61, pat pattern, o at next level, l at next level, right associativity).
Notation "' pat <-- o ;; r" := (given o (fun x => match x with pat => r end))
  (at level 61, pat pattern, o at next level, right associativity).
(** A debug assertion holds or is not compiled in. *)
Definition in_debug (dbg b : bool) : bool := negb dbg || b.
Definition when (b : bool) (l : list number) : list number := if b then l else [].

(** ** Arithmetic *)
(** A quotient of decimals; dividing by zero panics. *)
Definition n_div (s a b : Z) : list number := v <-- ddiv s a b ;; [Amt v].
(** A remainder overflows only as a division by -1 would. *)
Definition n_rem (a b : Z) : list number := if b =? - 1 then [Amt (- a)] else [].
(** Running sums. *)
Fixpoint n_sums (acc : Z) (l : list Z) : list number :=
  match l with [] => [] | x :: rest => Amt (acc + x) :: n_sums (acc + x) rest end.

Definition n_convert (k : kind) (s units price : Z) : list number :=
  match k with Linear => [Amt (Z.quot (units * price) s)] | Inverse => n_div s units price end.

Definition n_pnl (k : kind) (s entry exit qty : Z) : list number :=
  if qty =? 0 then [] else
  match k with
  | Linear => [Amt (dmul s qty exit); Amt (dmul s qty entry); Amt (dmul s qty exit - dmul s qty entry)]
  | Inverse =>
      a <-- ddiv s qty entry with n_div s qty entry ;;
      b <-- ddiv s qty exit with n_div s qty exit ;;
      [Amt (a - b)]
  end.

Definition n_liq_long (s price mm : Z) : list number := [Amt (s - mm); Amt (dmul s price (s - mm))].
Definition n_liq_short (s price mm : Z) : list number := [Amt (s + mm); Amt (dmul s price (s + mm))].

Definition n_weighted (s p0 w0 p1 w1 : Z) : list number :=
  need Amt (w0 + w1) ;;
  need Amt (dmul s p0 w0) ;;
  need Amt (dmul s p1 w1) ;;
  need Amt (dmul s p0 w0 + dmul s p1 w1) ;;
  n_div s (dmul s p0 w0 + dmul s p1 w1) (w0 + w1).

(** ** Accounting *)
Definition n_balance (acc : accounts) (id : account_id) : list number := [Amt (margin_balance_of acc id)].

(** The debug assertion adds up all debits, then all credits. *)
Definition n_equation (dbg : bool) (a : accounts) : list number :=
  let six := [ac_wallet a; ac_om a; ac_pm a; ac_fee a; ac_broker a; ac_treasury a] in
  when dbg (n_sums 0 (map ta_debits six) ++ n_sums 0 (map ta_credits six)).

Definition n_accounting_new (dbg : bool) (start : Z) : list number :=
  let none := {| ta_debits := 0; ta_credits := 0 |} in
  need Amt start ;;
  need Amt start ;;
  n_equation dbg {| ac_wallet := {| ta_debits := start; ta_credits := 0 |}; ac_om := none; ac_pm := none; ac_fee := none;
                    ac_broker := none; ac_treasury := {| ta_debits := 0; ta_credits := start |} |}.

(** Both totals, then the equation over the ledger with both entries posted. *)
Definition n_transfer (dbg : bool) (acc : accounts) (d c : account_id) (amt : Z) : list number :=
  _ <-- transaction_new d c amt ;;
  need Amt (ta_debits (get_account acc d) + amt) ;;
  need Amt (ta_credits (get_account acc c) + amt) ;;
  acc' <-- transfer false acc d c amt ;;
  n_equation dbg acc'.

(** ** Filters *)
Definition n_limit_price (s : Z) (f : price_filter) (limit mark : Z) : list number :=
  let min := match pf_min f with Some m => m | None => 0 end in
  if (limit <=? 0) || match pf_max f with Some m => m <? limit | None => false end || match pf_min f with Some m => limit <? m | None => false end
  then [] else
    need Amt (limit - min) ;;
    r <-- drem (limit - min) (pf_tick f) with n_rem (limit - min) (pf_tick f) ;;
    if negb (r =? 0) then [] else
    need Amt (dmul s mark (pf_up f)) ;;
    if (dmul s mark (pf_up f) <? limit) && negb (pf_up f =? 0) then [] else
    [Amt (dmul s mark (pf_down f))].

Definition n_quantity (f : quantity_filter) (q : Z) : list number :=
  let min := match qf_min f with Some m => m | None => 0 end in
  if (q =? 0) || match qf_max f with Some m => m <? q | None => false end || match qf_min f with Some m => q <? m | None => false end
  then [] else Amt (q - min) :: n_rem (q - min) (qf_tick f).

(** ** Position *)
Definition n_inner_new (c : config) (acc : accounts) (qty price : Z) : list number :=
  guard (0 <? qty) ;;
  guard (0 <? price) ;;
  value <-- convert_from (c_kind c) (c_scale c) qty price with n_convert (c_kind c) (c_scale c) qty price ;;
  need Amt (dmul (c_scale c) value (ct_imr (c_spec c))) ;;
  n_transfer (c_dbg c) acc POSITION_MARGIN WALLET (dmul (c_scale c) value (ct_imr (c_spec c))).

Definition n_increase (c : config) (p : position_inner) (acc : accounts) (qty price fees : Z) : list number :=
  guard (0 <? qty) ;;
  guard (0 <? price) ;;
  value <-- convert_from (c_kind c) (c_scale c) qty price with n_convert (c_kind c) (c_scale c) qty price ;;
  _ <-- new_weighted_price (c_scale c) (pi_entry p) (pi_qty p) price qty with n_weighted (c_scale c) (pi_entry p) (pi_qty p) price qty ;;
  need Amt (pi_qty p + qty) ;;
  need Amt (pi_fees p + fees) ;;
  need Amt (dmul (c_scale c) value (ct_imr (c_spec c))) ;;
  n_transfer (c_dbg c) acc POSITION_MARGIN WALLET (dmul (c_scale c) value (ct_imr (c_spec c))).

(** Profit goes from the treasury to the wallet, a loss the other way. *)
Definition n_realise (dbg : bool) (acc : accounts) (profit : Z) : list number :=
  if 0 <? profit then n_transfer dbg acc WALLET TREASURY profit
  else if profit <? 0 then Amt (- profit) :: n_transfer dbg acc TREASURY WALLET (- profit)
  else [].
Definition realised (dbg : bool) (acc : accounts) (profit : Z) : outcome accounts :=
  if 0 <? profit then transfer dbg acc WALLET TREASURY profit
  else if profit <? 0 then transfer dbg acc TREASURY WALLET (- profit)
  else Done acc.

Definition n_decrease (c : config) (p : position_inner) (acc : accounts) (qty price : Z) (long : bool) (fees : Z) : list number :=
  let s := c_scale c in
  let signed := if long then qty else - qty in
  guard (0 <? qty) ;;
  guard (qty <=? pi_qty p) ;;
  need Amt (pi_qty p - qty) ;;
  need Amt (pi_fees p + fees) ;;
  needs when (negb long) [Amt (- qty)] ;;
  profit <-- pnl (c_kind c) s (pi_entry p) price signed with n_pnl (c_kind c) s (pi_entry p) price signed ;;
  acc1 <-- realised (c_dbg c) acc profit with n_realise (c_dbg c) acc profit ;;
  value <-- convert_from (c_kind c) s qty (pi_entry p) with n_convert (c_kind c) s qty (pi_entry p) ;;
  need Amt (dmul s value (ct_imr (c_spec c))) ;;
  guard (in_debug (c_dbg c) (0 <? dmul s value (ct_imr (c_spec c)))) ;;
  acc2 <-- transfer (c_dbg c) acc1 WALLET POSITION_MARGIN (dmul s value (ct_imr (c_spec c)))
    with n_transfer (c_dbg c) acc1 WALLET POSITION_MARGIN (dmul s value (ct_imr (c_spec c))) ;;
  when (0 <? pi_fees p + fees) (n_transfer (c_dbg c) acc2 FEE WALLET (pi_fees p + fees)).

(** A close reads the position margin in debug builds, a flip always. *)
Definition n_against (c : config) (p : position_inner) (acc : accounts) (qty price : Z) (long : bool) (fees : Z) : list number :=
  if qty <? pi_qty p then n_decrease c p acc qty price long fees
  else if qty =? pi_qty p then
    '(_, acc1) <-- decrease_contracts c p acc qty price long fees with n_decrease c p acc qty price long fees ;;
    when (c_dbg c) (n_balance acc1 POSITION_MARGIN)
  else
    need Amt (qty - pi_qty p) ;;
    '(i, acc1) <-- decrease_contracts c p acc (pi_qty p) price long fees with n_decrease c p acc (pi_qty p) price long fees ;;
    guard (pi_qty i =? 0) ;;
    needs n_balance acc1 POSITION_MARGIN ;;
    guard (margin_balance_of acc1 POSITION_MARGIN =? 0) ;;
    n_inner_new c acc1 (qty - pi_qty p) price.

Definition n_change (c : config) (pos : position) (acc : accounts) (qty price : Z) (sd : side) (fees : Z) : list number :=
  guard (in_debug (c_dbg c) (0 <? qty)) ;;
  match pos, sd with
  | Neutral, _ =>
      needs when (c_dbg c) (n_balance acc POSITION_MARGIN) ;;
      guard (in_debug (c_dbg c) (margin_balance_of acc POSITION_MARGIN =? 0)) ;;
      n_inner_new c acc qty price
  | Long p, Buy | Short p, Sell => n_increase c p acc qty price fees
  | Long p, Sell => n_against c p acc qty price true fees
  | Short p, Buy => n_against c p acc qty price false fees
  end.

(** ** Limit orders *)
Definition n_total (o : limit_order) : list number :=
  match lo_filled o with Unfilled => [] | FilledQ cum _ => [Amt (lo_rem o + cum)] end.

Definition n_fill (s : Z) (o : limit_order) (q : Z) : list number :=
  guard (q <=? lo_rem o) ;;
  guard (0 <? q) ;;
  match lo_filled o with
  | Unfilled => [Amt (lo_rem o - q)]
  | FilledQ cum avg =>
      need Amt (cum + q) ;;
      _ <-- new_weighted_price s avg cum (lo_price o) q with n_weighted s avg cum (lo_price o) q ;;
      [Amt (lo_rem o - q)]
  end.

(** ** Order margin *)
(** Sorting two or more negates every key. *)
Definition n_keys (l : list (Z * Z)) : list number :=
  match l with [] | [_] => [] | _ => map (fun x => Amt (- fst x)) l end.

(** Each order up to the one that uses the position up: its excess, and what is left of the position. *)
Fixpoint n_offset (outstanding : Z) (orders : list (Z * Z)) : list number :=
  match orders with
  | [] => []
  | (_, q) :: rest =>
      when (0 <? outstanding)
        (Amt (q - outstanding) :: Amt (outstanding - Z.min q outstanding) :: n_offset (outstanding - Z.min q outstanding) rest)
  end.

Fixpoint n_value (k : kind) (s sum : Z) (orders : list (Z * Z)) : list number :=
  match orders with
  | [] => []
  | (price, q) :: rest =>
      v <-- convert_from k s q price with n_convert k s q price ;;
      Amt (sum + v) :: n_value k s (sum + v) rest
  end.

(** The orders of one side, with the new order if it is on that side. *)
Definition with_new (sd : side) (book : list limit_order) (o : option limit_order) : list (Z * Z) :=
  side_orders sd (book ++ match o with Some x => [x] | None => [] end).

Definition n_order_margin (c : config) (book : list limit_order) (pos : position) (o : option limit_order) : list number :=
  let k := c_kind c in
  let s := c_scale c in
  let buys := sort_by_key (fun x => - fst x) (with_new Buy book o) in
  let sells := sort_by_key (fun x => fst x) (with_new Sell book o) in
  let buys' := match pos with Short i => offset_orders (pi_qty i) buys | _ => buys end in
  let sells' := match pos with Long i => offset_orders (pi_qty i) sells | _ => sells end in
  guard (in_debug (c_dbg c) (ct_imr (c_spec c) <=? s)) ;;
  needs n_keys (with_new Buy book o) ;;
  needs match pos with Short i => n_offset (pi_qty i) buys | _ => [] end ;;
  needs match pos with Long i => n_offset (pi_qty i) sells | _ => [] end ;;
  bv <-- orders_value k s buys' with n_value k s 0 buys' ;;
  sv <-- orders_value k s sells' with n_value k s 0 sells' ;;
  [Amt (dmul s (Z.max bv sv) (ct_imr (c_spec c)))].

(** ** Risk engine *)
Definition n_open (c : config) (qty price : Z) : list number :=
  let s := c_scale c in
  v <-- convert_from (c_kind c) s qty price with n_convert (c_kind c) s qty price ;;
  [Amt (dmul s v (ct_imr (c_spec c))); Amt (dmul s v (ct_taker (c_spec c)));
   Amt (dmul s v (ct_imr (c_spec c)) + dmul s v (ct_taker (c_spec c)))].

Definition n_reduce (c : config) (p : position_inner) (position_margin qty price wallet : Z) : list number :=
  let s := c_scale c in
  when (pi_qty p <? qty)
   (need Amt (qty - pi_qty p) ;;
    _ <-- convert_from (c_kind c) s (qty - pi_qty p) price with n_open c (qty - pi_qty p) price ;;
    [Amt (wallet + position_margin)]).

Definition n_market_check (c : config) (pos : position) (position_margin : Z) (sd : side) (qty price wallet : Z) : list number :=
  match sd, pos with
  | Buy, Short p | Sell, Long p => n_reduce c p position_margin qty price wallet
  | _, _ => n_open c qty price
  end.

Definition n_limit_check (c : config) (pos : position) (o : limit_order) (wallet : Z) (book : list limit_order) : list number :=
  om <-- order_margin c book pos with n_order_margin c book pos None ;;
  _ <-- order_margin_with_order c book pos o with n_order_margin c book pos (Some o) ;;
  [Amt (wallet + om)].

Definition n_maintenance (c : config) (pos : position) : list number :=
  match pos with
  | Neutral => []
  | Long p => n_liq_long (c_scale c) (pi_entry p) (ct_mm (c_spec c))
  | Short p => n_liq_short (c_scale c) (pi_entry p) (ct_mm (c_spec c))
  end.

(** ** Market updates *)
Definition n_mid (m : market_state) : list number := [Amt (ms_bid m + ms_ask m); Amt (Z.quot (ms_bid m + ms_ask m) 2)].

(** The step size of prices, one after the other until one is not a multiple. *)
Fixpoint n_steps (step : Z) (prices : list Z) : list number :=
  match prices with
  | [] => []
  | p :: rest => r <-- drem p step with n_rem p step ;; when (r =? 0) (n_steps step rest)
  end.
Definition no_less (f : price_filter) (l : list Z) : bool := forallb (fun p => is_ok (enforce_min_price (pf_min f) p)) l.
Definition no_more (f : price_filter) (l : list Z) : bool := forallb (fun p => is_ok (enforce_max_price (pf_max f) p)) l.
(** The step sizes are only looked at when all prices are within the limits. *)
Definition n_prices (f : price_filter) (prices : list Z) : list number :=
  when (no_less f prices && no_more f prices) (n_steps (pf_tick f) prices).

Definition n_validate (f : price_filter) (u : market_update) : list number :=
  match u with
  | UBba b => n_prices f [bb_bid b; bb_ask b]
  | UTrade t => n_prices f [tr_price t]
  | UCandle k => n_prices f [cd_bid k; cd_ask k; cd_low k; cd_high k]
  | USmart _ => []
  end.

Definition n_market_update (dbg : bool) (f : price_filter) (u : market_update) (m : market_state) : list number :=
  _ <-- debug_assert_m dbg (v <- validate_market_update f u ;; Done (is_ok v)) PInvalidUpdateDebug with when dbg (n_validate f u) ;;
  [Cnt (ms_step m + 1)].

(** Trades are looked at until a valid one is found. *)
Fixpoint n_any_valid (f : price_filter) (l : list trade) : list number :=
  match l with
  | [] => []
  | t :: rest => v <-- validate_trade f t with n_prices f [tr_price t] ;; if is_ok v then [] else n_any_valid f rest
  end.

Definition n_smart (dbg : bool) (trades : list trade) (b : bba) (f : price_filter) : list number :=
  match trades with
  | [] => []
  | _ =>
      _ <-- debug_assert_m dbg (any_valid f trades) PSmartNoValidDebug with when dbg (n_any_valid f trades) ;;
      v <-- validate_bba f b with n_prices f [bb_bid b; bb_ask b] ;;
      guard (is_ok v) ;;
      guard (in_debug dbg (forallb (fun t => 0 <? tr_qty t) trades)) ;;
      needs n_keys (trades_of Buy trades) ;;
      needs n_sums 0 (map snd (sort_by_key (fun x => - fst x) (trades_of Buy trades))) ;;
      n_sums 0 (map snd (sort_by_key (fun x => fst x) (trades_of Sell trades)))
  end.

Definition n_build (dbg : bool) (r : raw_update) : list number :=
  match r with RSmart ts b f => n_smart dbg ts b f | _ => [] end.

(** ** Account tracker *)
(** The counters and volumes after a call of the tracker; those the call leaves alone were computed by earlier calls. *)
Definition n_tracker (t : tracker) : list number :=
  [Cnt (tk_sub_limit t); Cnt (tk_cancelled t); Cnt (tk_fill_events t); Cnt (tk_fully_filled t); Cnt (tk_sub_market t);
   Cnt (tk_filled_market t); Amt (tk_buy_volume t); Amt (tk_sell_volume t)].

Definition n_trade (c : config) (t : tracker) (sd : side) (price qty : Z) : list number :=
  guard (0 <? qty) ;;
  v <-- convert_from (c_kind c) (c_scale c) qty price with n_convert (c_kind c) (c_scale c) qty price ;;
  n_tracker match sd with Buy => tracker_add t 0 0 0 0 0 0 v 0 | Sell => tracker_add t 0 0 0 0 0 0 0 v end.

(** ** Exchange *)
Definition n_new (c : config) : list number :=
  _ <-- accounting_new (c_dbg c) (c_start c) with n_accounting_new (c_dbg c) (c_start c) ;;
  [Tim (c_sample_s c * 1000000000)].

Definition n_balances (e : exchange) : list number :=
  let wallet := margin_balance_of (ex_acc e) WALLET in
  let pm := margin_balance_of (ex_acc e) POSITION_MARGIN in
  let om := margin_balance_of (ex_acc e) ORDER_MARGIN in
  [Amt wallet; Amt pm; Amt om] ++ n_mid (ex_ms e) ++ [Amt (wallet + pm); Amt (wallet + pm + om)].

(** An empty book asks for the order margin. *)
Definition n_empty (e : exchange) : list number :=
  match ex_active e with [] => n_balance (ex_acc e) ORDER_MARGIN | _ => [] end.
Definition empty_ok (e : exchange) : bool :=
  match ex_active e with [] => margin_balance_of (ex_acc e) ORDER_MARGIN =? 0 | _ => true end.

Definition n_settle (c : config) (e : exchange) (o : filled_market) : list number :=
  let s := c_scale c in
  let qty := fm_qty o in
  let price := fm_avg o in
  guard (0 <? qty) ;;
  guard (0 <? price) ;;
  value <-- convert_from (c_kind c) s qty price with n_convert (c_kind c) s qty price ;;
  let fees := dmul s value (ct_taker (c_spec c)) in
  need Amt fees ;;
  _ <-- change_position c (ex_pos e) (ex_acc e) qty price (fm_side o) fees
    with n_change c (ex_pos e) (ex_acc e) qty price (fm_side o) fees ;;
  needs n_tracker (log_market_order_fill (ex_trk e)) ;;
  n_trade c (log_market_order_fill (ex_trk e)) (fm_side o) price qty.

Definition n_market (c : config) (e : exchange) (o : new_market) : list number :=
  let e1 := set_trk e (log_market_order_submission (ex_trk e)) in
  let e2 := set_next_id e1 (ex_next_id e + 1) in
  let price := match nm_side o with Buy => ms_ask (ex_ms e) | Sell => ms_bid (ex_ms e) end in
  let pm := margin_balance_of (ex_acc e) POSITION_MARGIN in
  let wallet := margin_balance_of (ex_acc e) WALLET in
  needs n_tracker (ex_trk e1) ;;
  v <-- validate_order_quantity (ct_qf (c_spec c)) (nm_qty o) with n_quantity (ct_qf (c_spec c)) (nm_qty o) ;;
  when (is_ok v)
   (need Cnt (ex_next_id e + 1) ;;
    need Amt pm ;;
    need Amt wallet ;;
    r <-- check_market_order c (ex_pos e) pm (nm_side o) (nm_qty o) price wallet
      with n_market_check c (ex_pos e) pm (nm_side o) (nm_qty o) price wallet ;;
    when (is_ok r) (n_settle c e2 (market_into_filled o (ex_next_id e) (ms_ts (ex_ms e)) price (ms_ts (ex_ms e))))).

Definition n_liquidate (c : config) (e : exchange) : list number :=
  match ex_pos e with
  | Neutral => []
  | Long p => match market_new Sell (pi_qty p) 0 with Ok o => n_market c e o | Err _ => [] end
  | Short p => match market_new Buy (pi_qty p) 0 with Ok o => n_market c e o | Err _ => [] end
  end.

(** The change of the order margin is booked; the assertions at the end read balances. *)
Definition n_append (c : config) (e : exchange) (o : limit_order) : list number :=
  '(om', r) <-- om_update (c_max c) (ex_om e) o ;;
  when (is_ok r)
    match book_insert active_capacity (ex_active e) o with
    | (act', r') =>
        when (is_ok r')
         (new_om <-- order_margin c om' (ex_pos e) with n_order_margin c om' (ex_pos e) None ;;
          let old_om := margin_balance_of (ex_acc e) ORDER_MARGIN in
          need Amt old_om ;;
          when (negb (new_om =? old_om))
           (need Amt (Z.abs (new_om - old_om)) ;;
            acc <-- transfer (c_dbg c) (ex_acc e) ORDER_MARGIN WALLET (Z.abs (new_om - old_om))
              with n_transfer (c_dbg c) (ex_acc e) ORDER_MARGIN WALLET (Z.abs (new_om - old_om)) ;;
            let e3 := set_acc (set_active (set_om e om') act') acc in
            guard (orders_eqb om' act') ;;
            needs n_empty e3 ;;
            guard (empty_ok e3) ;;
            n_balance acc WALLET))
    end.

Definition n_limit (c : config) (e : exchange) (o : new_limit) : list number :=
  let e1 := set_trk e (log_limit_order_submission (ex_trk e)) in
  let e2 := set_next_id e1 (ex_next_id e + 1) in
  let order := limit_into_pending o (ex_next_id e) (ms_ts (ex_ms e)) in
  let wallet := margin_balance_of (ex_acc e) WALLET in
  let mid := mid_price (ex_ms e) in
  needs n_tracker (ex_trk e1) ;;
  v <-- validate_order_quantity (ct_qf (c_spec c)) (nl_rem o) with n_quantity (ct_qf (c_spec c)) (nl_rem o) ;;
  when (is_ok v)
   (needs n_mid (ex_ms e) ;;
    p <-- validate_limit_price (c_scale c) (ct_pf (c_spec c)) (nl_price o) mid
      with n_limit_price (c_scale c) (ct_pf (c_spec c)) (nl_price o) mid ;;
    when (is_ok p)
     (need Cnt (ex_next_id e + 1) ;;
      need Amt wallet ;;
      r <-- check_limit_order c (ex_pos e) order wallet (ex_om e) with n_limit_check c (ex_pos e) order wallet (ex_om e) ;;
      when (is_ok r) (when (negb (marketable (ex_ms e) order)) (n_append c e2 order)))).

(** An order margin that shrinks is paid back. *)
Definition n_release (dbg : bool) (e : exchange) (old_om new_om : Z) : list number :=
  when (new_om <? old_om) (Amt (old_om - new_om) :: n_transfer dbg (ex_acc e) WALLET ORDER_MARGIN (old_om - new_om)).
Definition released (dbg : bool) (e : exchange) (old_om new_om : Z) : outcome exchange :=
  if new_om <? old_om then acc <- transfer dbg (ex_acc e) WALLET ORDER_MARGIN (old_om - new_om) ;; Done (set_acc e acc)
  else Done e.

Definition n_cancel (c : config) (e : exchange) (by_ : cancel_by) : list number :=
  let old_om := margin_balance_of (ex_acc e) ORDER_MARGIN in
  need Amt old_om ;;
  comp <-- order_margin c (ex_om e) (ex_pos e) with n_order_margin c (ex_om e) (ex_pos e) None ;;
  guard (old_om =? comp) ;;
  match (match by_ with
         | ByOrderId id => remove_by_order_id (ex_active e) id
         | ByUserOrderId uid => remove_by_user_order_id (ex_active e) uid
         end) with
  | None => []
  | Some (_, act') =>
      om' <-- om_remove (ex_om e) by_ ;;
      new_om <-- order_margin c om' (ex_pos e) with n_order_margin c om' (ex_pos e) None ;;
      guard (new_om <=? old_om) ;;
      e3 <-- released (c_dbg c) (set_om (set_active e act') om') old_om new_om with n_release (c_dbg c) e old_om new_om ;;
      needs n_tracker (log_limit_order_cancellation (ex_trk e)) ;;
      guard (orders_eqb om' act') ;;
      n_empty e3
  end.

Definition n_amend (c : config) (e : exchange) (id : Z) (o : new_limit) : list number :=
  match get_by_id (ex_active e) id with
  | None => []
  | Some existing =>
      total <-- lo_total_quantity existing with n_total existing ;;
      need Amt (nl_rem o - total) ;;
      need Amt (lo_rem existing + (nl_rem o - total)) ;;
      if lo_rem existing + (nl_rem o - total) <=? 0 then n_cancel c e (ByOrderId id)
      else
        o' <-- set_remaining_quantity o (lo_rem existing + (nl_rem o - total)) ;;
        '(e1, r) <-- cancel_limit_order c e (ByOrderId id) with n_cancel c e (ByOrderId id) ;;
        when (is_ok r) (n_limit c e1 o')
  end.

(** The exchange after the book keeping of one fill. *)
Definition booked (c : config) (e : exchange) (ids : list Z) (o : limit_order) (filled : option filled_limit)
  : outcome (exchange * list Z) :=
  match filled with
  | Some fo =>
      om' <- om_remove (ex_om e) (ByOrderId (lo_id o)) ;;
      Done (set_updates (set_om (set_trk e (log_limit_order_fill (ex_trk e) true)) om') (ex_updates e ++ [FullyFilled fo]),
            ids ++ [lo_id o])
  | None =>
      _ <- debug_assert (c_dbg c) (0 <? lo_rem o) PFillRemDebug ;;
      '(om', r) <- om_update (c_max c) (ex_om e) o ;;
      match r with
      | Err _ => Panic PFillUpdate
      | Ok _ => Done (set_updates (set_om (set_trk e (log_limit_order_fill (ex_trk e) false)) om')
                        (ex_updates e ++ [PartiallyFilled o]), ids)
      end
  end.

Definition n_fill_one (c : config) (u : market_update) (e : exchange) (ids : list Z) (o : limit_order) : list number :=
  let s := c_scale c in
  let dbg := c_dbg c in
  let old_om := margin_balance_of (ex_acc e) ORDER_MARGIN in
  f <-- limit_order_filled dbg u o ;;
  match f with
  | None => []
  | Some q =>
      guard (in_debug dbg (0 <? q)) ;;
      need Amt old_om ;;
      _ <-- debug_assert_m dbg (comp <- computed_order_margin c e ;; Done (old_om =? comp)) PFillMarginDebug
        with when dbg (n_order_margin c (ex_om e) (ex_pos e) None) ;;
      '(o', filled) <-- order_fill s o q (update_ts u) with n_fill s o q ;;
      '(e1, _) <-- booked c e ids o' filled
        with match filled with
             | Some _ => n_tracker (log_limit_order_fill (ex_trk e) true)
             | None => guarding (in_debug dbg (0 <? lo_rem o')) (n_tracker (log_limit_order_fill (ex_trk e) false))
             end ;;
      value <-- convert_from (c_kind c) s q (lo_price o') with n_convert (c_kind c) s q (lo_price o') ;;
      let fees := dmul s value (ct_maker (c_spec c)) in
      need Amt fees ;;
      '(pos, acc) <-- change_position c (ex_pos e1) (ex_acc e1) q (lo_price o') (lo_side o') fees
        with n_change c (ex_pos e1) (ex_acc e1) q (lo_price o') (lo_side o') fees ;;
      let e2 := set_acc (set_pos e1 pos) acc in
      t2 <-- log_trade c (ex_trk e2) (lo_side o') (lo_price o') q with n_trade c (ex_trk e2) (lo_side o') (lo_price o') q ;;
      let e3 := set_trk e2 t2 in
      new_om <-- computed_order_margin c e3 with n_order_margin c (ex_om e3) (ex_pos e3) None ;;
      guard (in_debug dbg (new_om <=? old_om)) ;;
      n_release dbg e3 old_om new_om
  end.

Fixpoint n_fill_loop (c : config) (u : market_update) (e : exchange) (ids : list Z) (todo : list limit_order) : list number :=
  match todo with
  | [] => []
  | o :: rest =>
      '(e1, ids1, _) <-- fill_one c u e ids o with n_fill_one c u e ids o ;;
      n_fill_loop c u e1 ids1 rest
  end.

(** The orders are matched, then assertions read balances and compute the order margin. *)
Definition n_check (c : config) (e : exchange) (u : market_update) : list number :=
  let dbg := c_dbg c in
  let e0 := set_updates e [] in
  when (can_fill u)
   (guard (in_debug dbg (orders_eqb (ex_om e) (ex_active e))) ;;
    '(e1, ids, arena) <-- fill_loop c u e0 [] (ex_active e) with n_fill_loop c u e0 [] (ex_active e) ;;
    act <-- remove_executed ids arena ;;
    let e2 := set_active e1 act in
    guard (in_debug dbg (orders_eqb (ex_om e2) act)) ;;
    needs when dbg (n_empty e2) ;;
    guard (in_debug dbg (empty_ok e2)) ;;
    _ <-- debug_assert_m dbg (comp <- computed_order_margin c e2 ;;
                              Done (margin_balance_of (ex_acc e2) ORDER_MARGIN =? comp)) PEndMarginDebug
      with when dbg (n_balance (ex_acc e2) ORDER_MARGIN ++ n_order_margin c (ex_om e2) (ex_pos e2) None) ;;
    n_balance (ex_acc e2) WALLET).

Definition n_update (c : config) (e : exchange) (u : market_update) : list number :=
  ms <-- market_update_state (c_dbg c) (ct_pf (c_spec c)) u (ex_ms e) with n_market_update (c_dbg c) (ct_pf (c_spec c)) u (ex_ms e) ;;
  needs n_mid ms ;;
  let e2 := set_trk (set_ms e ms) (tracker_update (ex_trk e) ms) in
  needs when (negb (tg_init (ex_trig e))) [Tim (tg_last (ex_trig e) + tg_interval (ex_trig e))] ;;
  match should_trigger (ex_trig e) (update_ts u) with
  | (trig, fire) =>
      let e3 := set_trig e2 trig in
      needs when fire (n_balances e3) ;;
      let e4 := if fire then set_trk e3 (tracker_sample (ex_trk e3) (balances_sum (balances e3))) else e3 in
      needs n_maintenance c (ex_pos e) ;;
      if is_ok (check_maintenance_margin c (ms_bid ms) (ms_ask ms) (ex_pos e)) then n_check c e4 u else n_liquidate c e4
  end.

Definition n_step (c : config) (e : exchange) (o : op) : list number :=
  match o with
  | OpUpdate r => u <-- build_update (c_dbg c) r with n_build (c_dbg c) r ;; n_update c e u
  | OpCheck r => u <-- build_update (c_dbg c) r with n_build (c_dbg c) r ;; n_check c e u
  | OpMarket sd qty uid => match market_new sd qty uid with Ok m => n_market c e m | Err _ => [] end
  | OpLimit sd price qty uid => match limit_new sd price qty uid with Ok l => n_limit c e l | Err _ => [] end
  | OpCancel by_ => n_cancel c e by_
  | OpAmend id sd price qty uid => match limit_new sd price qty uid with Ok l => n_amend c e id l | Err _ => [] end
  end.

Fixpoint n_run (c : config) (e : exchange) (ops : list op) : list number :=
  match ops with
  | [] => []
  | o :: rest => '(e1, _) <-- step c e o with n_step c e o ;; n_run c e1 rest
  end.

(** Everything a history on a fresh exchange computes. *)
Definition n_play (c : config) (ops : list op) : list number :=
  e0 <-- init c with (t <-- tracker_new (c_start c) ;; n_new c) ;;
  n_run c e0 ops.

(** ** Widths *)
(** Bits of the smallest signed type that holds [z]. *)
Definition bits (z : Z) : Z := Z.log2_up (if z <? 0 then - z else z + 1) + 1.
(** Bits of the smallest type that holds all amounts of a list. *)
Definition width_of (l : list number) : Z :=
  fold_right (fun n acc => match n with Amt z => Z.max (bits z) acc | _ => acc end) 1 l.
(** A counter or a time that does not fit; the width of amounts plays no part. *)
Definition other_overflow (n : number) : Prop :=
  match n with
  | Amt _ => False
  | Cnt z => ~ (0 <= z < 2 ^ 64)
  | Tim z => ~ in_range 64 z
  end.
