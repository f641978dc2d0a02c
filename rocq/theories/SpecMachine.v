(** A reference machine: the whole exchange as one small computable function, written without accounts,
    position variants, panics or a second copy of the book.  Money, position and fees are the trade ledger
    of Spec.v; the two margins are numbers; the wallet is what is left. *)
From Verif Require Import Base Types Accounting Position OrderBook OrderMargin MarketUpdate Exchange Spec SpecMarket SpecFlow SpecMargin.

Record machine := {
  m_book : ledger;                 (* position, entry price, fees due, money, fees paid *)
  m_held : Z;                      (* margin of the position *)
  m_reserved : Z;                  (* margin of the resting orders *)
  m_orders : list limit_order;     (* resting orders *)
  m_bid : Z;
  m_ask : Z;
  m_time : Z;
  m_next : Z                       (* id of the next order *)
}.

Definition m_start (c : config) : machine :=
  {| m_book := ledger_start (c_start c); m_held := 0; m_reserved := 0; m_orders := []; m_bid := 0; m_ask := 0;
     m_time := 0; m_next := 0 |}.

Definition m_pos (m : machine) : Z := l_qty (m_book m).
Definition m_free (m : machine) : Z := l_cash (m_book m) - m_held m - m_reserved m.

Definition with_orders (m : machine) (l : list limit_order) (reserved : Z) : machine :=
  {| m_book := m_book m; m_held := m_held m; m_reserved := reserved; m_orders := l; m_bid := m_bid m; m_ask := m_ask m;
     m_time := m_time m; m_next := m_next m |}.
Definition with_id (m : machine) : machine :=
  {| m_book := m_book m; m_held := m_held m; m_reserved := m_reserved m; m_orders := m_orders m; m_bid := m_bid m;
     m_ask := m_ask m; m_time := m_time m; m_next := m_next m + 1 |}.
Definition with_quote (m : machine) (ru : raw_update) : machine :=
  let q := match quote_of ru with Some q => q | None => (m_bid m, m_ask m) end in
  {| m_book := m_book m; m_held := m_held m; m_reserved := m_reserved m; m_orders := m_orders m;
     m_bid := fst q; m_ask := snd q; m_time := time_of ru; m_next := m_next m |}.

(** ** Resting orders *)

(** Best price first, older first at the same price. *)
Definition better (sd : side) (a b : Z * Z) : bool := match sd with Buy => fst b <? fst a | Sell => fst a <? fst b end.
Fixpoint place (sd : side) (x : Z * Z) (l : list (Z * Z)) : list (Z * Z) :=
  match l with
  | [] => [x]
  | y :: r => if better sd y x then y :: place sd x r else x :: y :: r
  end.
Definition ranking (sd : side) (l : list limit_order) : list (Z * Z) := fold_right (place sd) [] (pairs sd l).
(** Margin the orders need next to a position of [n] contracts. *)
Definition need (c : config) (l : list limit_order) (n : Z) : Z :=
  requirement (c_kind c) (c_scale c) (ct_imr (c_spec c)) n (ranking Buy l) (ranking Sell l).

(** Take out the first order that satisfies [p]; the last order moves to its place. *)
Fixpoint take_out (p : limit_order -> bool) (l : list limit_order) : list limit_order :=
  match l with
  | [] => []
  | o :: r => if p o then match r with [] => [] | _ => last r o :: removelast r end else o :: take_out p r
  end.
Definition named (b : cancel_by) (o : limit_order) : bool :=
  match b with ByOrderId i => lo_id o =? i | ByUserOrderId u => lo_uid o =? u end.

(** ** Executions *)
Definition m_fill (c : config) (m : machine) (f : fill) : machine :=
  {| m_book := apply_fill (c_kind c) (c_scale c) (m_book m) f;
     m_held := margin_after c (m_book m) (m_held m) f;
     m_reserved := m_reserved m; m_orders := m_orders m; m_bid := m_bid m; m_ask := m_ask m; m_time := m_time m;
     m_next := m_next m |}.
Definition m_price (m : machine) (sd : side) : Z := match sd with Buy => m_ask m | Sell => m_bid m end.
Definition taken (c : config) (m : machine) (sd : side) (q : Z) : fill :=
  {| f_side := sd; f_qty := q; f_price := m_price m sd; f_rate := ct_taker (c_spec c) |}.

(** One resting order meets an update: it leaves the book or stays with its remainder, the fill is booked
    and margin no longer needed is freed. *)
Definition m_meet (c : config) (ru : raw_update) (m : machine) (o : limit_order) : machine :=
  match touched ru o with
  | None => m
  | Some q =>
      let l := match reported_as (c_scale c) o q (time_of ru) with
               | FullyFilled _ => take_out (named (ByOrderId (lo_id o))) (m_orders m)
               | PartiallyFilled o' => map (fun x => if lo_id x =? lo_id o then o' else x) (m_orders m)
               end in
      let m1 := m_fill c m {| f_side := lo_side o; f_qty := q; f_price := lo_price o; f_rate := ct_maker (c_spec c) |} in
      with_orders m1 l (Z.min (m_reserved m) (need c l (m_pos m1)))
  end.
Definition m_meet_all (c : config) (ru : raw_update) (m : machine) : machine :=
  fold_left (m_meet c ru) (m_orders m) m.

(** ** Calls *)
Definition quantity_fault (f : quantity_filter) (q : Z) : option order_error :=
  if match qf_max f with Some x => x <? q | None => false end then Some QuantityTooHigh
  else if match qf_min f with Some x => q <? x | None => false end then Some QuantityTooLow
  else if (q - match qf_min f with Some x => x | None => 0 end) mod (qf_tick f) =? 0 then None
  else Some InvalidQuantityStepSize.
Definition price_fault (s : Z) (f : price_filter) (mark p : Z) : option order_error :=
  if match pf_max f with Some x => x <? p | None => false end then Some LimitPriceAboveMax
  else if match pf_min f with Some x => p <? x | None => false end then Some LimitPriceBelowMin
  else if negb ((p - match pf_min f with Some x => x | None => 0 end) mod (pf_tick f) =? 0) then Some InvalidOrderPriceStepSize
  else if negb (pf_up f =? 0) && (Z.quot (mark * pf_up f) s <? p) then Some LimitPriceAboveMultiple
  else if negb (pf_down f =? 0) && (p <? Z.quot (mark * pf_down f) s) then Some LimitPriceBelowMultiple
  else None.

(** Is there enough money for [q] contracts at the quote?  Closing is free, also of fees. *)
Definition m_funded (c : config) (m : machine) (sd : side) (q : Z) : bool :=
  let cost q := margin_at c q (m_price m sd) + fee (c_kind c) (c_scale c) (taken c m sd q) in
  let held := Z.abs (m_pos m) in
  if (m_pos m =? 0) || (Z.sgn (m_pos m) =? Z.sgn (signed_qty (taken c m sd q))) then cost q <=? m_free m
  else (q <=? held) || (cost (q - held) <=? m_free m + m_held m).

Definition m_market (c : config) (m : machine) (sd : side) (q uid : Z) : machine * result error out :=
  if q <=? 0 then (m, Err (EOrder OrderQuantityLTEZero))
  else match quantity_fault (ct_qf (c_spec c)) q with
  | Some e => (m, Err (EOrder e))
  | None =>
      if m_funded c m sd q then
        (with_id (m_fill c m (taken c m sd q)),
         Ok (OutMarket {| fm_uid := uid; fm_side := sd; fm_qty := q; fm_id := m_next m; fm_ts := m_time m;
                          fm_exec_ts := m_time m; fm_avg := m_price m sd; fm_filled := q |}))
      else (with_id m, Err (ERisk NotEnoughAvailableBalance))
  end.

Definition m_submit (c : config) (m : machine) (sd : side) (p q uid : Z) : machine * result error out :=
  match quantity_fault (ct_qf (c_spec c)) q with
  | Some e => (m, Err (EOrder e))
  | None =>
  match price_fault (c_scale c) (ct_pf (c_spec c)) (Z.quot (m_bid m + m_ask m) 2) p with
  | Some e => (m, Err (EOrder e))
  | None =>
      let o := {| lo_uid := uid; lo_side := sd; lo_price := p; lo_rem := q; lo_id := m_next m; lo_ts := m_time m;
                  lo_filled := Unfilled |} in
      let l := m_orders m ++ [o] in
      let n := need c l (m_pos m) in
      if m_free m + need c (m_orders m) (m_pos m) <? n then (with_id m, Err (ERisk NotEnoughAvailableBalance))
      else if match sd with Buy => m_ask m <=? p | Sell => p <=? m_bid m end
      then (with_id m, Err (EOrder GoodTillCrossingRejectedOrder))
      else if c_max c <=? Z.of_nat (length (m_orders m)) then (with_id m, Err EMaxNumberOfActiveOrders)
      else (with_id (with_orders m l (m_reserved m + Z.abs (n - m_reserved m))), Ok (OutLimit o))
  end end.
Definition m_limit (c : config) (m : machine) (sd : side) (p q uid : Z) : machine * result error out :=
  if p <=? 0 then (m, Err (EOrder LimitPriceLTEZero))
  else if q <=? 0 then (m, Err (EOrder OrderQuantityLTEZero))
  else m_submit c m sd p q uid.

Definition m_unknown (m : machine) (b : cancel_by) : error :=
  match b with
  | ByOrderId i => if i <? m_next m then EOrderNoLongerActive else EOrderIdNotFound i
  | ByUserOrderId _ => EUserOrderIdNotFound
  end.
Definition m_drop (c : config) (m : machine) (b : cancel_by) : machine :=
  let l := take_out (named b) (m_orders m) in with_orders m l (need c l (m_pos m)).
Definition m_cancel (c : config) (m : machine) (b : cancel_by) : machine * result error out :=
  match find (named b) (m_orders m) with
  | None => (m, Err (m_unknown m b))
  | Some o => (m_drop c m b, Ok (OutLimit o))
  end.

(** [q] is the new total quantity of the order. *)
Definition m_amend (c : config) (m : machine) (id : Z) (sd : side) (p q uid : Z) : machine * result error out :=
  if p <=? 0 then (m, Err (EOrder LimitPriceLTEZero))
  else if q <=? 0 then (m, Err (EOrder OrderQuantityLTEZero))
  else match find (named (ByOrderId id)) (m_orders m) with
  | None => (m, Err (m_unknown m (ByOrderId id)))
  | Some o =>
      let m1 := m_drop c m (ByOrderId id) in
      let left := q - lo_filled_qty o in
      if left <=? 0 then (m1, Err EAmendQtyAlreadyFilled) else m_submit c m1 sd p left uid
  end.

Definition m_due (c : config) (m : machine) : bool :=
  let s := c_scale c in
  let entry := l_entry (m_book m) in
  if 0 <? m_pos m then (m_bid m + 1) * s <=? entry * (s - ct_mm (c_spec c))
  else if m_pos m <? 0 then entry * (s + ct_mm (c_spec c)) <? m_ask m * s
  else false.
Definition m_update (c : config) (m : machine) (ru : raw_update) : machine * result error out :=
  let m1 := with_quote m ru in
  if m_due c m1 then
    let sd := if 0 <? m_pos m1 then Sell else Buy in
    (with_id (m_fill c m1 (taken c m1 sd (Z.abs (m_pos m1)))), Err (ERisk Liquidate))
  else (m_meet_all c ru m1, Ok (OutUpdates (reports (c_scale c) ru (m_orders m1)))).

Definition m_call (c : config) (m : machine) (o : op) : machine * result error out :=
  match o with
  | OpUpdate ru => m_update c m ru
  | OpMarket sd q uid => m_market c m sd q uid
  | OpLimit sd p q uid => m_limit c m sd p q uid
  | OpCancel b => m_cancel c m b
  | OpAmend id sd p q uid => m_amend c m id sd p q uid
  | OpCheck ru => (m_meet_all c ru m, Ok OutUnit)
  end.
Fixpoint m_run (c : config) (m : machine) (ops : list op) : machine * list (result error out) :=
  match ops with
  | [] => (m, [])
  | o :: r => let (m1, x) := m_call c m o in let (m2, xs) := m_run c m1 r in (m2, x :: xs)
  end.

(** The exchange seen as a machine. *)
Definition machine_of (e : exchange) : machine :=
  {| m_book := statement_of e; m_held := position_margin_of e; m_reserved := order_margin_of e; m_orders := ex_active e;
     m_bid := ms_bid (ex_ms e); m_ask := ms_ask (ex_ms e); m_time := ms_ts (ex_ms e); m_next := ex_next_id e |}.
