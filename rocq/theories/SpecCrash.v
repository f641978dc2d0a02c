(** Which call of the reference machine hits which assertion. *)
From Verif Require Import Base Types Accounting Filters Position OrderBook OrderMargin MarketUpdate Exchange Spec SpecMarket SpecFlow SpecMargin SpecMachine.

(** The first assertion that fails, if any. *)
Fixpoint first_of (l : list (option panic_site)) : option panic_site :=
  match l with [] => None | Some w :: _ => Some w | None :: r => first_of r end.
Definition demand (b : bool) (w : panic_site) : option panic_site := if b then None else Some w.
Definition in_debug (c : config) (x : option panic_site) : option panic_site := if c_dbg c then x else None.

(** A value in an inverse contract is a division by the price. *)
Definition divides (c : config) (p : Z) : bool := match c_kind c with Linear => true | Inverse => negb (p =? 0) end.

(** ** Booking a fill: every transfer has to be positive and the released margin has to be the posted one. *)
Definition fill_crash (c : config) (m : machine) (f : fill) : option panic_site :=
  let held := Z.abs (m_pos m) in
  let entry := l_entry (m_book m) in
  let closed := Z.min (f_qty f) held in
  let posts q := demand (0 <? margin_at c q (f_price f)) PTxAmount in
  if (m_pos m =? 0) || (Z.sgn (m_pos m) =? Z.sgn (signed_qty f)) then posts (f_qty f)
  else first_of
    [ demand (divides c entry) PDivByZero;
      in_debug c (demand (0 <? margin_at c closed entry) PMarginToFreeDebug);
      demand (0 <? margin_at c closed entry) PTxAmount;
      match f_qty f ?= held with
      | Lt => None
      | Eq => in_debug c (demand (m_held m =? margin_at c held entry) PCloseMarginDebug)
      | Gt => first_of [ demand (m_held m =? margin_at c held entry) PFlipMargin; posts (f_qty f - held) ]
      end ].

(** Execution at the quote. *)
Definition take_crash (c : config) (m : machine) (sd : side) (q : Z) : option panic_site :=
  first_of [ demand (0 <? m_price m sd) PSettlePrice; fill_crash c m (taken c m sd q) ].

(** ** Orders *)
Definition market_crash (c : config) (m : machine) (sd : side) (q : Z) : option panic_site :=
  if q <=? 0 then None
  else match quantity_fault (ct_qf (c_spec c)) q with
  | Some _ => None
  | None =>
      let closes := negb (m_pos m =? 0) && negb (Z.sgn (m_pos m) =? Z.sgn (signed_qty (taken c m sd q))) && (q <=? Z.abs (m_pos m)) in
      first_of [ demand (closes || divides c (m_price m sd)) PDivByZero;
                 if m_funded c m sd q then take_crash c m sd q else None ]
  end.

(** Reserving the margin of an accepted order may overdraw the wallet when the reserved margin was wrong. *)
Definition submit_crash (c : config) (m : machine) (sd : side) (p q uid : Z) : option panic_site :=
  match m_submit c m sd p q uid with
  | (m', Ok _) => demand ((m_reserved m' =? m_reserved m) || (0 <=? m_free m')) PWalletNegative
  | (_, Err _) => None
  end.
Definition limit_crash (c : config) (m : machine) (sd : side) (p q uid : Z) : option panic_site :=
  if (p <=? 0) || (q <=? 0) then None else submit_crash c m sd p q uid.

Definition cancel_crash (c : config) (m : machine) (b : cancel_by) : option panic_site :=
  first_of
    [ demand (m_reserved m =? need c (m_orders m) (m_pos m)) PCancelMargin;
      match find (named b) (m_orders m) with
      | None => None
      | Some _ => demand (m_reserved (m_drop c m b) <=? m_reserved m) PCancelMarginGrows
      end ].
Definition amend_crash (c : config) (m : machine) (id : Z) (sd : side) (p q uid : Z) : option panic_site :=
  if (p <=? 0) || (q <=? 0) then None
  else match find (named (ByOrderId id)) (m_orders m) with
  | None => None
  | Some o =>
      let left := q - lo_filled_qty o in
      first_of [ cancel_crash c m (ByOrderId id);
                 if left <=? 0 then None else submit_crash c (m_drop c m (ByOrderId id)) sd p left uid ]
  end.

(** ** Market data *)
Definition price_in (f : price_filter) (p : Z) : bool :=
  match pf_min f with Some x => (x =? 0) || (x <=? p) | None => true end &&
  match pf_max f with Some x => (x =? 0) || (p <=? x) | None => true end.
Definition price_valid (f : price_filter) (p : Z) : bool := price_in f p && (p mod pf_tick f =? 0).
Definition quote_valid (f : price_filter) (b : bba) : bool :=
  price_valid f (bb_bid b) && price_valid f (bb_ask b) && (bb_bid b <? bb_ask b).
Definition data_valid (f : price_filter) (ru : raw_update) : bool :=
  match ru with
  | RBba b => quote_valid f b
  | RTrade t => price_valid f (tr_price t)
  | RCandle k => price_valid f (cd_bid k) && price_valid f (cd_ask k) && price_valid f (cd_low k) && price_valid f (cd_high k)
                 && (cd_bid k <? cd_ask k) && (cd_low k <? cd_high k)
  | RSmart _ _ _ => true
  end.

(** Building a smart candle from trades, a quote and a filter of the caller's choice. *)
Definition build_crash (c : config) (ru : raw_update) : option panic_site :=
  match ru with
  | RSmart l b f =>
      first_of
        [ demand (match l with [] => false | _ => true end) PSmartEmpty;
          in_debug c (if pf_tick f =? 0 then demand (negb (existsb (fun t => price_in f (tr_price t)) l)) PDivByZero else None);
          in_debug c (demand (existsb (fun t => price_valid f (tr_price t)) l) PSmartNoValidDebug);
          demand (negb ((pf_tick f =? 0) && price_in f (bb_bid b) && price_in f (bb_ask b))) PDivByZero;
          demand (quote_valid f b) PSmartBba;
          in_debug c (demand (forallb (fun t => 0 <? tr_qty t) l) PSmartQtyDebug) ]
  | _ => None
  end.

(** ** Fills of resting orders *)
Definition meet_crash (c : config) (ru : raw_update) (m : machine) (o : limit_order) : option panic_site :=
  first_of
    [ match ru with RTrade t => in_debug c (demand (0 <? tr_qty t) PTradeQtyDebug) | _ => None end;
      match touched ru o with
      | None => None
      | Some q =>
          let f := {| f_side := lo_side o; f_qty := q; f_price := lo_price o; f_rate := ct_maker (c_spec c) |} in
          let m' := m_meet c ru m o in
          first_of
            [ in_debug c (demand (m_reserved m =? need c (m_orders m) (m_pos m)) PFillMarginDebug);
              demand (0 <? q) PFillNonPos;
              fill_crash c m f;
              in_debug c (demand (need c (m_orders m') (m_pos m') <=? m_reserved m) PFillMarginGrowsDebug) ]
      end ].
Fixpoint meet_all_crash (c : config) (ru : raw_update) (m : machine) (l : list limit_order) : option panic_site :=
  match l with
  | [] => None
  | o :: r => first_of [ meet_crash c ru m o; meet_all_crash c ru (m_meet c ru m o) r ]
  end.
Definition check_crash (c : config) (m : machine) (ru : raw_update) : option panic_site :=
  match ru with
  | RBba _ => None
  | _ =>
      let m' := m_meet_all c ru m in
      first_of [ meet_all_crash c ru m (m_orders m);
                 in_debug c (demand (m_reserved m' =? need c (m_orders m') (m_pos m')) PEndMarginDebug);
                 demand (0 <=? m_free m') PWalletNegative ]
  end.

Definition update_crash (c : config) (m : machine) (ru : raw_update) : option panic_site :=
  let m1 := with_quote m ru in
  first_of
    [ in_debug c (demand (data_valid (ct_pf (c_spec c)) ru) PInvalidUpdateDebug);
      if m_due c m1 then
        first_of [ demand (match quantity_fault (ct_qf (c_spec c)) (Z.abs (m_pos m1)) with None => true | Some _ => false end) PLiquidateSubmit;
                   take_crash c m1 (if 0 <? m_pos m1 then Sell else Buy) (Z.abs (m_pos m1)) ]
      else check_crash c m1 ru ].

Definition m_crash (c : config) (m : machine) (o : op) : option panic_site :=
  match o with
  | OpUpdate ru => first_of [ build_crash c ru; update_crash c m ru ]
  | OpMarket sd q _ => market_crash c m sd q
  | OpLimit sd p q uid => limit_crash c m sd p q uid
  | OpCancel b => cancel_crash c m b
  | OpAmend id sd p q uid => amend_crash c m id sd p q uid
  | OpCheck ru => first_of [ build_crash c ru; check_crash c m ru ]
  end.

(** ** The machine with its panics *)
Definition m_exec (c : config) (m : machine) (o : op) : outcome (machine * result error out) :=
  match m_crash c m o with Some w => Panic w | None => Done (m_call c m o) end.
Fixpoint m_play (c : config) (m : machine) (ops : list op) : outcome (machine * list (result error out)) :=
  match ops with
  | [] => Done (m, [])
  | o :: r => match m_exec c m o with
              | Panic w => Panic w
              | Done (m1, x) => match m_play c m1 r with Panic w => Panic w | Done (m2, xs) => Done (m2, x :: xs) end
              end
  end.
(** An execution of the exchange with its final state seen as a machine. *)
Definition seen {A} (x : outcome (exchange * A)) : outcome (machine * A) :=
  match x with Done (e, a) => Done (machine_of e, a) | Panic w => Panic w end.
