(** What an account tracker is told. *)
From Verif Require Import Base Types Position OrderBook OrderMargin MarketUpdate Tracker Exchange Untracked Tracked Spec SpecMarket.

(** The calls in order, each to the tracker as the one before left it. *)
Fixpoint replay {T} (hook : T -> event -> outcome T) (t : T) (l : list event) : outcome T :=
  match l with
  | [] => Done t
  | ev :: r => t1 <- hook t ev ;; replay hook t1 r
  end.
(** A tracker that never panics. *)
Definition never_panics {T} (hook : T -> event -> outcome T) : Prop := forall t ev, exists t', hook t ev = Done t'.

(** The market after an update. *)
Definition moved (ru : raw_update) (m : market_state) : market_state :=
  let q := match quote_of ru with Some q => q | None => (ms_bid m, ms_ask m) end in
  {| ms_bid := fst q; ms_ask := snd q; ms_ts := time_of ru; ms_step := ms_step m + 1 |}.
(** Balances are sampled at the first update and then once an interval has passed since the last due time. *)
Definition sample_due (t : trigger) (ts : Z) : bool := tg_init t || (tg_last t + tg_interval t <=? ts).

(** Each order that an update fills: the fill, then the trade. *)
Definition fill_told (ru : raw_update) (o : limit_order) : list event :=
  match touched ru o with
  | Some q => [EvLimitFilled (q =? lo_rem o) q; EvTrade (lo_side o) (lo_price o) q]
  | None => []
  end.
(** A market order: its submission in any case, fill and trade if it is accepted. *)
Definition market_told (m : market_state) (sd : side) (q uid : Z) (accepted : bool) : list event :=
  EvMarketSubmitted {| nm_uid := uid; nm_side := sd; nm_qty := q |} ::
  (if accepted then [EvMarketFilled; EvTrade sd (match sd with Buy => ms_ask m | Sell => ms_bid m end) q] else []).

(** Everything a call tells the tracker, given the state before and the result of the call. *)
Definition told (e : quiet) (o : op) (r : result error out) : list event :=
  match o with
  | OpMarket sd q uid => if 0 <? q then market_told (qx_ms e) sd q uid (is_ok r) else []
  | OpLimit sd p q uid =>
      if (0 <? p) && (0 <? q) then [EvLimitSubmitted {| nl_uid := uid; nl_side := sd; nl_price := p; nl_rem := q |}] else []
  | OpCancel _ => if is_ok r then [EvCancelled] else []
  | OpAmend i sd p q uid =>
      if (0 <? p) && (0 <? q) then
        match find (fun o => lo_id o =? i) (qx_active e) with
        | None => []
        | Some o =>
            let left := q - lo_filled_qty o in
            EvCancelled ::
            (if 0 <? left then [EvLimitSubmitted {| nl_uid := uid; nl_side := sd; nl_price := p; nl_rem := left |}] else [])
        end
      else []
  | OpCheck ru => flat_map (fill_told ru) (qx_active e)
  | OpUpdate ru =>
      let m := moved ru (qx_ms e) in
      EvMarket m ::
      (if sample_due (qx_trig e) (time_of ru) then [EvBalances (q_balances e) (Z.quot (ms_bid m + ms_ask m) 2)] else []) ++
      (if is_ok r then flat_map (fill_told ru) (qx_active e)
       else let n := position_quantity (qx_pos e) in
            market_told m (if 0 <? n then Sell else Buy) (Z.abs n) 0 true)
  end.
(** Over a history. *)
Fixpoint told_all (c : config) (e : quiet) (ops : list op) : list event :=
  match ops with
  | [] => []
  | o :: rest => match q_step c e o with
                 | Done (e1, r) => told e o r ++ told_all c e1 rest
                 | Panic _ => []
                 end
  end.
