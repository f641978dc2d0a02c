(** Independent rules for what market updates do: crossing, fills, quotes, liquidation. *)
From Verif Require Import Base Types Accounting Position OrderBook MarketUpdate Exchange Spec SpecRules.

(** [p] is strictly better than the limit price of [o], seen from a taker on the other side. *)
Definition beyond (o : limit_order) (p : Z) : bool :=
  match lo_side o with Buy => p <? lo_price o | Sell => lo_price o <? p end.
(** The taker trade crosses the order. *)
Definition crosses (o : limit_order) (t : trade) : bool :=
  match lo_side o, tr_side t with
  | Buy, Sell => beyond o (tr_price t)
  | Sell, Buy => beyond o (tr_price t)
  | _, _ => false
  end.
(** Total quantity of the crossing trades. *)
Definition crossing_qty (o : limit_order) (l : list trade) : Z := sumZ (map tr_qty (filter (crosses o) l)).

(** The quantity of [o] that an update fills, if any. *)
Definition touched (ru : raw_update) (o : limit_order) : option Z :=
  match ru with
  | RBba _ => None
  | RTrade t => if crosses o t then Some (Z.min (tr_qty t) (lo_rem o)) else None
  | RCandle k => if beyond o (match lo_side o with Buy => cd_low k | Sell => cd_high k end)
                 then Some (lo_rem o) else None
  | RSmart l _ _ => if existsb (crosses o) l then Some (Z.min (crossing_qty o l) (lo_rem o)) else None
  end.

(** Exchange time of an update. *)
Definition time_of (ru : raw_update) : Z :=
  match ru with
  | RBba b => bb_ts b
  | RTrade t => tr_ts t
  | RCandle k => cd_ts k
  | RSmart [] _ _ => 0
  | RSmart (t :: l) _ _ => tr_ts (last l t)
  end.

(** How the fill of [q] contracts of [o] is reported. *)
Definition reported_as (s : Z) (o : limit_order) (q ts : Z) : order_update :=
  if q =? lo_rem o then
    FullyFilled {| fl_uid := lo_uid o; fl_side := lo_side o; fl_price := lo_price o; fl_rem := 0; fl_id := lo_id o;
                   fl_ts := lo_ts o; fl_exec_ts := ts; fl_avg := lo_price o; fl_qty := lo_filled_qty o + q |}
  else
    PartiallyFilled {| lo_uid := lo_uid o; lo_side := lo_side o; lo_price := lo_price o; lo_rem := lo_rem o - q;
                       lo_id := lo_id o; lo_ts := lo_ts o;
                       lo_filled := FilledQ (lo_filled_qty o + q)
                         (match lo_filled o with
                          | Unfilled => lo_price o
                          | FilledQ cum avg => average s avg cum (lo_price o) q
                          end) |}.
Definition reports (s : Z) (ru : raw_update) (book : list limit_order) : list order_update :=
  flat_map (fun o => match touched ru o with Some q => [reported_as s o q (time_of ru)] | None => [] end) book.

(** The fills an update causes. *)
Definition caused (c : config) (ru : raw_update) (book : list limit_order) : list fill :=
  flat_map (fun o => match touched ru o with
                     | Some q => [{| f_side := lo_side o; f_qty := q; f_price := lo_price o; f_rate := ct_maker (c_spec c) |}]
                     | None => [] end) book.

(** The state of the exchange as an account statement. *)
Definition statement_of (e : exchange) : ledger :=
  {| l_qty := position_quantity (ex_pos e); l_entry := position_entry_price (ex_pos e);
     l_due := position_outstanding_fees (ex_pos e); l_cash := wealth_of e; l_paid := fees_paid e |}.

(** Bid and ask after an update. *)
Definition quote_after (ru : raw_update) (m : market_state) : Z * Z :=
  match quote_of ru with Some q => q | None => (ms_bid m, ms_ask m) end.

(** A long is due for liquidation when [bid] plus one unit of the last decimal place does not exceed
    [entry * (1 - mm)]; a short when [ask] is above [entry * (1 + mm)]. *)
Definition due (c : config) (pos : position) (bid ask : Z) : Prop :=
  match pos with
  | Neutral => False
  | Long i => (bid + 1) * c_scale c <= pi_entry i * (c_scale c - ct_mm (c_spec c))
  | Short i => pi_entry i * (c_scale c + ct_mm (c_spec c)) < ask * c_scale c
  end.
Definition due_after (c : config) (e : exchange) (ru : raw_update) : Prop :=
  due c (ex_pos e) (fst (quote_after ru (ex_ms e))) (snd (quote_after ru (ex_ms e))).

(** The closing order of a position and the price it gets. *)
Definition closing_side (pos : position) : side := match pos with Short _ => Buy | _ => Sell end.
Definition closing_fill (c : config) (e : exchange) (ru : raw_update) : fill :=
  {| f_side := closing_side (ex_pos e); f_qty := Z.abs (position_quantity (ex_pos e));
     f_price := match ex_pos e with Short _ => snd (quote_after ru (ex_ms e)) | _ => fst (quote_after ru (ex_ms e)) end;
     f_rate := ct_taker (c_spec c) |}.

(** The last quote and the number of updates in a list of calls. *)
Definition last_quote (ops : list op) : Z * Z :=
  fold_left (fun q o => match o with OpUpdate ru => match quote_of ru with Some q' => q' | None => q end | _ => q end) ops (0, 0).
Definition last_time (ops : list op) : Z :=
  fold_left (fun t o => match o with OpUpdate ru => time_of ru | _ => t end) ops 0.
Definition count_updates (ops : list op) : Z :=
  Z.of_nat (length (filter (fun o => match o with OpUpdate _ => true | _ => false end) ops)).

(** Feeding trades one by one to a single order, as the exchange does: stop when it is full. *)
Fixpoint feed (dbg : bool) (s : Z) (o : limit_order) (l : list trade) : outcome Z :=
  match l with
  | [] => Done 0
  | t :: rest =>
      f <- limit_order_filled dbg (UTrade t) o ;;
      match f with
      | None => feed dbg s o rest
      | Some q =>
          '(o', full) <- order_fill s o q (tr_ts t) ;;
          match full with
          | Some _ => Done q
          | None => n <- feed dbg s o' rest ;; Done (q + n)
          end
      end
  end.

(** Margin of a fill at a price. *)
Definition margin_at (c : config) (q p : Z) : Z :=
  Z.quot (value (c_kind c) (c_scale c) q p * ct_imr (c_spec c)) (c_scale c).
Definition pm_of (e : exchange) : Z := ub_pm (balances e).
(** The side that adds to a position. *)
Definition same_side (sd : side) (pos : position) : bool :=
  match sd, pos with Buy, Short _ => false | Sell, Long _ => false | _, _ => true end.
(** The margin transfers of a fill of [q] contracts at [p] all move a positive amount, and the position
    margin account holds exactly the margin of the position whenever it must be empty afterwards. *)
Definition bookable (c : config) (e : exchange) (sd : side) (q p : Z) : Prop :=
  let held := Z.abs (position_quantity (ex_pos e)) in
  let entry := position_entry_price (ex_pos e) in
  if same_side sd (ex_pos e) then 0 < margin_at c q p
  else match q ?= held with
       | Lt => 0 < margin_at c q entry
       | Eq => 0 < margin_at c q entry /\ (c_dbg c = true -> pm_of e = margin_at c q entry)
       | Gt => 0 < margin_at c held entry /\ 0 < margin_at c (q - held) p /\ pm_of e = margin_at c held entry
       end.
(** The balance check of a market order of [q] contracts at [p]. *)
Definition funded (c : config) (e : exchange) (sd : side) (q p : Z) : Prop :=
  let held := Z.abs (position_quantity (ex_pos e)) in
  let fee_at q := Z.quot (value (c_kind c) (c_scale c) q p * ct_taker (c_spec c)) (c_scale c) in
  if same_side sd (ex_pos e) then margin_at c q p + fee_at q <= ub_wallet (balances e)
  else q <= held \/ margin_at c (q - held) p + fee_at (q - held) <= ub_wallet (balances e) + pm_of e.
(** The price a market order gets. *)
Definition taker_price (e : exchange) (sd : side) : Z :=
  match sd with Buy => ms_ask (ex_ms e) | Sell => ms_bid (ex_ms e) end.

(** Update data that can be built, passes the validation of the debug build and is positive. *)
Definition positive_data (ru : raw_update) : Prop :=
  match ru with
  | RBba b => 0 < bb_bid b < bb_ask b
  | RTrade t => 0 < tr_price t /\ 0 < tr_qty t
  | RCandle k => 0 < cd_bid k < cd_ask k /\ 0 < cd_low k <= cd_high k
  | RSmart l b _ => 0 < bb_bid b < bb_ask b /\ forall t, In t l -> 0 < tr_price t /\ 0 < tr_qty t
  end.
Definition good_data (c : config) (ru : raw_update) : Prop :=
  positive_data ru /\ exists u, build_update (c_dbg c) ru = Done u /\ data_ok (ct_pf (c_spec c)) u.
