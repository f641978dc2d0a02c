(** The assertions that each call can hit. *)
From Verif Require Import Base Types Accounting Position OrderMargin MarketUpdate Exchange Spec SpecMargin.

(** Changing the position. *)
Definition position_sites : list panic_site :=
  [PTxAmount; PDivByZero; PMarginToFreeDebug; PCloseMarginDebug; PFlipMargin].

(** Bad market data. *)
Definition data_sites : list panic_site :=
  [PDivByZero; PSmartEmpty; PSmartNoValidDebug; PSmartBba; PSmartQtyDebug; PInvalidUpdateDebug; PTradeQtyDebug; PFillNonPos].

(** Order margin that does not match the resting orders. *)
Definition margin_sites : list panic_site := [PFillMarginDebug; PFillMarginGrowsDebug; PEndMarginDebug].

Definition fill_sites : list panic_site :=
  PTradeQtyDebug :: PFillNonPos :: PFillMarginDebug :: PFillMarginGrowsDebug :: position_sites.
Definition check_sites : list panic_site := PEndMarginDebug :: PWalletNegative :: fill_sites.

Definition sites (o : op) : list panic_site :=
  match o with
  | OpLimit _ _ _ _ => [PWalletNegative]
  | OpCancel _ => [PCancelMargin; PCancelMarginGrows]
  | OpAmend _ _ _ _ _ => [PCancelMargin; PCancelMarginGrows]
  | OpMarket _ _ _ => PSettlePrice :: position_sites
  | OpUpdate _ => PSettlePrice :: PLiquidateSubmit :: data_sites ++ check_sites
  | OpCheck _ => data_sites ++ check_sites
  end.

(** The reserved order margin is what the margin calculation asks for (property C16 characterises it). *)
Definition in_sync (c : config) (e : exchange) : Prop :=
  order_margin c (ex_active e) (ex_pos e) = Done (order_margin_of e).

(** Assertions about the agreement of the two books and about fills of tracked orders. *)
Definition book_sites : list panic_site :=
  [PAppendBooks; PAppendEmptyMargin; PCancelBooks; PCancelEmptyMargin; PBooksDebug; PEmptyMarginDebug; PRemoveExecuted;
   POmUpdateRemaining; POmUpdateSame; POmUpdateNotLess; POmRemove; PFillUpdate; PFillRemDebug; PFillTooLarge;
   PFilledQtyDebug; PTotalQuantity; PSetRemaining; PAmendCancel].

(** All other assertions that never fire. *)
Definition other_sites : list panic_site :=
  [PTxSameAccount; PAccountingEquation; PFillQtyPosDebug; PNeutralMarginDebug; PFlipQty; PNewPosQty; PNewPosPrice;
   PIncQty; PIncPrice; PDecQty; PDecQtyTooLarge; PDecQtyNegDebug; PImrDebug; PTradeRemDebug; PCandleRemDebug;
   PBbaUnreachable; PTrackerStart; PLogTradeQty; PLiquidateNeutral; PLiquidateOrder; PSettleQty].

(** Calls of the order entry part of the interface. *)
Definition limit_entry (o : op) : Prop :=
  match o with OpLimit _ _ _ _ | OpCancel _ | OpAmend _ _ _ _ _ => True | _ => False end.

(** At most one order of the side. *)
Definition lone (sd : side) (b : list limit_order) : Prop := (length (pairs sd b) <= 1)%nat.

(** Updates whose fills cannot raise the margin requirement: a trade that fills orders of one side while
    the position does not oppose that side or there is only one such order; a candle with at most one
    order on each side. *)
Definition gentle (ru : raw_update) (e : exchange) : Prop :=
  match ru with
  | RBba _ => True
  | RTrade t =>
      no_ties (ex_active e) /\
      match tr_side t with
      | Sell => position_quantity (ex_pos e) < 0 -> lone Buy (ex_active e)
      | Buy => 0 < position_quantity (ex_pos e) -> lone Sell (ex_active e)
      end
  | _ => lone Buy (ex_active e) /\ lone Sell (ex_active e)
  end.

(** Calls that keep the reserved margin right: order entry; market orders and liquidations without
    resting orders; updates that fill nothing or are gentle. *)
Definition calm (e : exchange) (o : op) (r : result error out) : Prop :=
  match o with
  | OpMarket _ _ _ => ex_active e = [] \/ exists err, r = Err err
  | OpUpdate ru => match r with Ok (OutUpdates []) => True | Ok _ => gentle ru e | Err _ => ex_active e = [] end
  | OpCheck ru => gentle ru e
  | _ => True
  end.

(** Every call of the sequence is calm. *)
Fixpoint calm_run (c : config) (e : exchange) (ops : list op) : Prop :=
  match ops with
  | [] => True
  | o :: rest => match step c e o with
                 | Done (e1, r) => calm e o r /\ calm_run c e1 rest
                 | Panic _ => True
                 end
  end.
