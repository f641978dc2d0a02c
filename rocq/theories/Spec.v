(** Independent specifications.  Nothing here refers to how the exchange computes; only the
    data types of the API (operations, results, orders, fills) are used. *)
From Verif Require Import Base Types Accounting Position OrderBook OrderMargin MarketUpdate Exchange.

(** ** Histories *)

(** The state after a history of calls on a freshly created exchange, with the results of the calls. *)
Definition history (c : config) (ops : list op) (e : exchange) (outs : list (result error out)) : Prop :=
  exists e0, init c = Done e0 /\ run c e0 ops = Done (e, outs).

(** The call [check_active_orders] is public for benchmarks only; it does not return the updates it
    produces.  Properties about reported fills exclude it. *)
Definition is_check (o : op) : bool := match o with OpCheck _ => true | _ => false end.
Definition no_check (ops : list op) : Prop := forall o, In o ops -> is_check o = false.

(** The observable balances. *)
Definition wallet_of (e : exchange) : Z := ub_wallet (balances e).
Definition order_margin_of (e : exchange) : Z := ub_om (balances e).
Definition position_margin_of (e : exchange) : Z := ub_pm (balances e).
Definition wealth_of (e : exchange) : Z := wallet_of e + order_margin_of e + position_margin_of e.

(** ** The trade ledger *)

(** A fill as a trader would note it down. *)
Record fill := { f_side : side; f_qty : Z; f_price : Z; f_rate : Z }.

(** Value in margin currency of [q] contracts at price [p]; decimals have scale [s]. *)
Definition value (k : kind) (s q p : Z) : Z :=
  match k with Linear => Z.quot (q * p) s | Inverse => Z.quot (q * s) p end.

Definition fee (k : kind) (s : Z) (f : fill) : Z := Z.quot (value k s (f_qty f) (f_price f) * f_rate f) s.

Definition signed_qty (f : fill) : Z := match f_side f with Buy => f_qty f | Sell => - f_qty f end.

(** Net position of a list of fills. *)
Definition net (fs : list fill) : Z := fold_right (fun f acc => signed_qty f + acc) 0 fs.

Record ledger := {
  l_qty : Z;      (* signed position *)
  l_entry : Z;    (* average entry price, 0 when flat *)
  l_due : Z;      (* fees not paid yet *)
  l_cash : Z;     (* money of the user *)
  l_paid : Z      (* fees paid *)
}.

Definition ledger_start (start : Z) : ledger :=
  {| l_qty := 0; l_entry := 0; l_due := 0; l_cash := start; l_paid := 0 |}.

(** Average price of [w0] contracts at [p0] and [w1] contracts at [p1]. *)
Definition average (s p0 w0 p1 w1 : Z) : Z :=
  Z.quot ((Z.quot (p0 * w0) s + Z.quot (p1 * w1) s) * s) (w0 + w1).

(** Profit of having held [q] contracts from [entry] to [exit]. *)
Definition gain (k : kind) (s q entry exit : Z) : Z :=
  match k with
  | Linear => value k s q exit - value k s q entry
  | Inverse => value k s q entry - value k s q exit
  end.

Definition apply_fill (k : kind) (s : Z) (l : ledger) (f : fill) : ledger :=
  let x := signed_qty f in
  let due := l_due l + fee k s f in
  if l_qty l =? 0 then
    {| l_qty := x; l_entry := f_price f; l_due := fee k s f; l_cash := l_cash l; l_paid := l_paid l |}
  else if Z.sgn (l_qty l) =? Z.sgn x then
    {| l_qty := l_qty l + x;
       l_entry := average s (l_entry l) (Z.abs (l_qty l)) (f_price f) (f_qty f);
       l_due := due; l_cash := l_cash l; l_paid := l_paid l |}
  else
    let closed := Z.min (Z.abs (l_qty l)) (f_qty f) in
    let profit := Z.sgn (l_qty l) * gain k s closed (l_entry l) (f_price f) in
    let pay := Z.max due 0 in
    let rest := l_qty l + x in
    {| l_qty := rest;
       l_entry := if rest =? 0 then 0 else if Z.sgn rest =? Z.sgn (l_qty l) then l_entry l else f_price f;
       l_due := if Z.sgn rest =? Z.sgn (l_qty l) then Z.min due 0 else 0;
       l_cash := l_cash l + profit - pay;
       l_paid := l_paid l + pay |}.

Definition ledger_of (c : config) (fs : list fill) : ledger :=
  fold_left (apply_fill (c_kind c) (c_scale c)) fs (ledger_start (c_start c)).

(** ** Reading the fills off the results of the calls *)

Record watch := {
  w_seen : Z -> Z;       (* order id -> filled quantity reported so far *)
  w_bid : Z;             (* last quote *)
  w_ask : Z;
  w_fills : list fill    (* fills so far, oldest first *)
}.

Definition watch_start : watch := {| w_seen := fun _ => 0; w_bid := 0; w_ask := 0; w_fills := [] |}.

Definition watch_add (w : watch) (f : fill) : watch :=
  {| w_seen := w_seen w; w_bid := w_bid w; w_ask := w_ask w; w_fills := w_fills w ++ [f] |}.

(** One entry of the list returned by [update_state]: the increase of the filled quantity is a fill at
    the limit price. *)
Definition watch_limit (c : config) (w : watch) (id : Z) (sd : side) (price filled : Z) : watch :=
  {| w_seen := fun i => if i =? id then filled else w_seen w i;
     w_bid := w_bid w; w_ask := w_ask w;
     w_fills := w_fills w ++ [{| f_side := sd; f_qty := filled - w_seen w id; f_price := price;
                                 f_rate := ct_maker (c_spec c) |}] |}.

Definition watch_update (c : config) (w : watch) (u : order_update) : watch :=
  match u with
  | PartiallyFilled o => watch_limit c w (lo_id o) (lo_side o) (lo_price o) (lo_filled_qty o)
  | FullyFilled o => watch_limit c w (fl_id o) (fl_side o) (fl_price o) (fl_qty o)
  end.

(** The quote contained in a market update. *)
Definition quote_of (r : raw_update) : option (Z * Z) :=
  match r with
  | RBba b => Some (bb_bid b, bb_ask b)
  | RTrade _ => None
  | RCandle k => Some (cd_bid k, cd_ask k)
  | RSmart _ b _ => Some (bb_bid b, bb_ask b)
  end.

Definition watch_quote (w : watch) (r : raw_update) : watch :=
  match quote_of r with
  | Some (b, a) => {| w_seen := w_seen w; w_bid := b; w_ask := a; w_fills := w_fills w |}
  | None => w
  end.

(** A liquidation is a market order that closes the position. *)
Definition liquidation_fill (c : config) (w : watch) : fill :=
  let n := net (w_fills w) in
  if 0 <? n
  then {| f_side := Sell; f_qty := n; f_price := w_bid w; f_rate := ct_taker (c_spec c) |}
  else {| f_side := Buy; f_qty := - n; f_price := w_ask w; f_rate := ct_taker (c_spec c) |}.

Definition watch_call (c : config) (w : watch) (h : op * result error out) : watch :=
  match h with
  | (OpUpdate r, Ok (OutUpdates l)) => fold_left (watch_update c) l (watch_quote w r)
  | (OpUpdate r, Err (ERisk Liquidate)) =>
      let w' := watch_quote w r in watch_add w' (liquidation_fill c w')
  | (OpMarket _ _ _, Ok (OutMarket m)) =>
      watch_add w {| f_side := fm_side m; f_qty := fm_filled m; f_price := fm_avg m;
                     f_rate := ct_taker (c_spec c) |}
  | _ => w
  end.

Definition watched (c : config) (ops : list op) (outs : list (result error out)) : watch :=
  fold_left (watch_call c) (combine ops outs) watch_start.

(** All fills reported to the user in a history, oldest first. *)
Definition reported_fills (c : config) (ops : list op) (outs : list (result error out)) : list fill :=
  w_fills (watched c ops outs).

(** Reachable states. *)
Definition reachable (c : config) (e : exchange) : Prop := exists ops outs, history c ops e outs.

(** ** Accounts *)
Definition all_accounts : list account_id :=
  [WALLET; ORDER_MARGIN; POSITION_MARGIN; FEE; BROKER; TREASURY].
Definition sumZ (l : list Z) : Z := fold_right Z.add 0 l.
Definition total_debits (e : exchange) : Z :=
  sumZ (map (fun a => ta_debits (get_account (ex_acc e) a)) all_accounts).
Definition total_credits (e : exchange) : Z :=
  sumZ (map (fun a => ta_credits (get_account (ex_acc e) a)) all_accounts).
Definition net_of (e : exchange) (a : account_id) : Z :=
  ta_debits (get_account (ex_acc e) a) - ta_credits (get_account (ex_acc e) a).

(** ** Fees *)
(** All fees of a list of fills. *)
Definition all_fees (k : kind) (s : Z) (fs : list fill) : Z := sumZ (map (fee k s) fs).
(** Traded value on one side. *)
Definition volume (k : kind) (s : Z) (sd : side) (fs : list fill) : Z :=
  sumZ (map (fun f => if side_eq_dec (f_side f) sd then value k s (f_qty f) (f_price f) else 0) fs).
