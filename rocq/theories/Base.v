(** Base: outcomes, results, panic sites and scaled decimals. *)
From Coq Require Export ZArith List Bool Lia.
Export ListNotations.
Open Scope Z_scope.

(** Every place where the modelled code can panic.  One constructor per
    assertion / expect / unreachable of the code that the model can reach. *)
Inductive panic_site :=
| PDivByZero              (* integer division or remainder by zero inside const_decimal *)
| PTxAmount               (* accounting/transaction.rs:64-67  amount > 0 *)
| PTxSameAccount          (* accounting/transaction.rs:68-71 *)
| PAccountingEquation     (* accounting/utils.rs:14-25 (debug) *)
| PFillQtyPosDebug        (* position.rs:96-99 (debug) *)
| PNeutralMarginDebug     (* position.rs:102-107 (debug) *)
| PCloseMarginDebug       (* position.rs:160-165, 216-221 (debug) *)
| PFlipQty                (* position.rs:177, 233 *)
| PFlipMargin             (* position.rs:178-183, 234-239 *)
| PNewPosQty              (* position_inner.rs:85 *)
| PNewPosPrice            (* position_inner.rs:86 *)
| PIncQty                 (* position_inner.rs:134 *)
| PIncPrice               (* position_inner.rs:135 *)
| PDecQty                 (* position_inner.rs:173 *)
| PDecQtyTooLarge         (* position_inner.rs:174 *)
| PDecQtyNegDebug         (* position_inner.rs:182 (debug) *)
| PMarginToFreeDebug      (* position_inner.rs:207 (debug) *)
| POmUpdateRemaining      (* order_margin.rs:45 *)
| POmUpdateSame           (* order_margin.rs:48-51 *)
| POmUpdateNotLess        (* order_margin.rs:52, 57 *)
| POmRemove               (* order_margin.rs:68, 73 *)
| PImrDebug               (* order_margin.rs:96 (debug) *)
| PFillTooLarge           (* types/limit_order.rs:199-202 *)
| PFillNonPos             (* types/limit_order.rs:203-206 *)
| PTotalQuantity          (* types/limit_order.rs:286-289 *)
| PSetRemaining           (* types/limit_order.rs:177 *)
| PTradeQtyDebug          (* market_update/trade_update.rs:55-58 (debug) *)
| PTradeRemDebug          (* market_update/trade_update.rs:59 (debug) *)
| PCandleRemDebug         (* market_update/candle_update.rs:56 (debug) *)
| PBbaUnreachable         (* market_update/bba_update.rs:58 *)
| PSmartEmpty             (* market_update/smart_candle.rs:45 *)
| PSmartNoValidDebug      (* market_update/smart_candle.rs:47-49 (debug) *)
| PSmartBba               (* market_update/smart_candle.rs:50-51 *)
| PSmartQtyDebug          (* market_update/smart_candle.rs:61 (debug) *)
| PInvalidUpdateDebug     (* market_state.rs:66 (debug) *)
| PTrackerStart           (* account_tracker/full_track.rs:98-101 *)
| PLogTradeQty            (* account_tracker/full_track.rs:362 *)
| PTradingDays            (* account_tracker/full_track.rs:158-161 *)
| PVolumeRatio            (* account_tracker/full_track.rs:201-202 *)
| PLiquidateNeutral       (* exchange.rs:222 *)
| PLiquidateOrder         (* exchange.rs:217, 220 *)
| PLiquidateSubmit        (* exchange.rs:224-225 *)
| PSettleQty              (* exchange.rs:284 *)
| PSettlePrice            (* exchange.rs:286 *)
| PAppendBooks            (* exchange.rs:465-468 *)
| PAppendEmptyMargin      (* exchange.rs:469-476 *)
| PCancelMargin           (* exchange.rs:493-499 *)
| PCancelMarginGrows      (* exchange.rs:523 *)
| PCancelBooks            (* exchange.rs:535-538 *)
| PCancelEmptyMargin      (* exchange.rs:539-546 *)
| PAmendCancel            (* exchange.rs:411-412 *)
| PRemoveExecuted         (* exchange.rs:558-560 *)
| PBooksDebug             (* exchange.rs:577-580, 668-671 (debug) *)
| PFilledQtyDebug         (* exchange.rs:591-594 (debug) *)
| PFillMarginDebug        (* exchange.rs:600-606 (debug) *)
| PFillRemDebug           (* exchange.rs:617 (debug) *)
| PFillUpdate             (* exchange.rs:621-623 *)
| PFillMarginGrowsDebug   (* exchange.rs:644-647 (debug) *)
| PIdsCapacityDebug       (* exchange.rs:663-666 (debug) *)
| PEmptyMarginDebug       (* exchange.rs:672-679 (debug) *)
| PEndMarginDebug         (* exchange.rs:680-688 (debug) *)
| PWalletNegative         (* utils.rs:54 *)
| PSideZero               (* types/side.rs:22-33 *)
| PCsvHeader              (* load_trades_from_csv.rs:25-29 *)
| PCsvSize                (* load_trades_from_csv.rs:42 *)
| PNewScale               (* types/smol_currency/quote_currency.rs:47, base_currency.rs:48-49 *)
| PDefaultLeverage        (* contract_specification.rs:108 *)
| PDefaultFee             (* contract_specification.rs:112-113 *)
| PDefaultContract        (* contract_specification.rs:115 *)
| PMockSetup.             (* mock_exchange.rs, every unwrap and expect *)

(** A Rust computation either returns or panics. *)
Inductive outcome (A : Type) :=
| Done (a : A)
| Panic (p : panic_site).
Arguments Done {A} a.
Arguments Panic {A} p.

Definition bind {A B} (m : outcome A) (k : A -> outcome B) : outcome B :=
  match m with Done a => k a | Panic p => Panic p end.

Notation "x <- m ;; k" := (bind m (fun x => k))
  (at level 61, m at next level, right associativity).
Notation "' pat <- m ;; k" := (bind m (fun x => match x with pat => k end))
  (at level 61, pat pattern, m at next level, right associativity).

(** [assert!(b)] *)
Definition assert (b : bool) (p : panic_site) : outcome unit :=
  if b then Done tt else Panic p.

(** [debug_assert!(b)]: only checked when the build mode flag is set. *)
Definition debug_assert (dbg b : bool) (p : panic_site) : outcome unit :=
  if dbg then assert b p else Done tt.

(** [debug_assert!] whose condition itself may panic; not evaluated in release builds. *)
Definition debug_assert_m (dbg : bool) (b : outcome bool) (p : panic_site) : outcome unit :=
  if dbg then v <- b ;; assert v p else Done tt.

(** [std::result::Result] *)
Inductive result (E A : Type) :=
| Ok (a : A)
| Err (e : E).
Arguments Ok {E A} a.
Arguments Err {E A} e.

Definition is_ok {E A} (r : result E A) : bool :=
  match r with Ok _ => true | Err _ => false end.

(** [Option::is_some] etc. are the standard [option] functions. *)

(** ** Scaled decimals.

    [const_decimal::Decimal<I, D>] wraps an integer scaled by [10^D]
    (Cargo.toml dependency [const-decimal], not vendored).  The model uses [Z];
    [s] is the scaling factor.  Overflow of [I] is the subject of Width.v and Fixed.v. *)

(** [impl Mul for Decimal]: [a * b / S], truncated towards zero. *)
Definition dmul (s a b : Z) : Z := Z.quot (a * b) s.

(** [impl Div for Decimal]: [a * S / b], truncated towards zero; panics for [b = 0]. *)
Definition ddiv (s a b : Z) : outcome Z :=
  if b =? 0 then Panic PDivByZero else Done (Z.quot (a * s) b).

(** [impl Rem for Decimal]: integer remainder; panics for [b = 0]. *)
Definition drem (a b : Z) : outcome Z :=
  if b =? 0 then Panic PDivByZero else Done (Z.rem a b).

(** src/utils.rs:16-40, [min] and [max] on ordered values. *)
Definition umin (a b : Z) : Z := if a <? b then a else b.
Definition umax (a b : Z) : Z := if b <? a then a else b.
