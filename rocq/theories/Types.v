(** Types: orders, configuration and errors. *)
From Verif Require Import Base.

(** src/types/side.rs:7-12 *)
Inductive side := Buy | Sell.

(** src/types/side.rs:14-20, [Side::inverted] *)
Definition side_inverted (s : side) : side :=
  match s with Buy => Sell | Sell => Buy end.

(** src/types/side.rs:22-33, [Side::from_taker_quantity]: asserts that the quantity is not zero;
    negative quantities are sells. *)
Definition side_from_taker_quantity (q : Z) : outcome side :=
  _ <- assert (negb (q =? 0)) PSideZero ;;
  Done (if q <? 0 then Sell else Buy).

(** The futures type.  [Linear]: margin is [QuoteCurrency], quantities are [BaseCurrency].
    [Inverse]: margin is [BaseCurrency], quantities are [QuoteCurrency].
    In Rust this is the type parameter [BaseOrQuote]
    (src/types/smol_currency/quote_currency.rs:112-127, base_currency.rs:96-110). *)
Inductive kind := Linear | Inverse.

(** src/types/errors/ (payload strings dropped). *)
Inductive filter_error :=
| MarketUpdatePriceTooLow | MarketUpdatePriceTooHigh
| MarketUpdatePriceStepSize | InvalidMarketUpdateBidAskSpread.

Inductive config_error :=
| InvalidLeverage | InvalidStartingBalance | InvalidMaxNumOpenOrders
| InvalidMinQuantity | InvalidMinPrice | InvalidTickSize
| InvalidUpMultiplier | InvalidDownMultiplier | InvalidMaintenanceMarginFraction.

Inductive order_error :=
| LimitPriceBelowMultiple | LimitPriceBelowMin | LimitPriceLTEZero
| LimitPriceAboveMultiple | LimitPriceAboveMax | GoodTillCrossingRejectedOrder
| InvalidOrderPriceStepSize | OrderQuantityLTEZero
| QuantityTooLow | QuantityTooHigh | InvalidQuantityStepSize.

Inductive risk_error := NotEnoughAvailableBalance | Liquidate.

Inductive error :=
| EOrder (e : order_error)
| ERisk (e : risk_error)
| EUserOrderIdNotFound
| EOrderIdNotFound (id : Z)
| EOrderNoLongerActive
| EAmendQtyAlreadyFilled
| EMaxNumberOfActiveOrders.

(** src/order_filters/price_filter.rs:10-38 *)
Record price_filter := {
  pf_min : option Z;
  pf_max : option Z;
  pf_tick : Z;
  pf_up : Z;
  pf_down : Z
}.

(** src/order_filters/quantity_filter.rs:8-29 *)
Record quantity_filter := {
  qf_min : option Z;
  qf_max : option Z;
  qf_tick : Z
}.

(** src/contract_specification.rs:15-56 (ticker and mark_method have no effect and are dropped). *)
Record contract := {
  ct_imr : Z;        (* init_margin_req *)
  ct_mm : Z;         (* maintenance_margin *)
  ct_pf : price_filter;
  ct_qf : quantity_filter;
  ct_maker : Z;      (* fee_maker *)
  ct_taker : Z       (* fee_taker *)
}.

(** src/config.rs:13-41 plus the compile time parameters: futures type, decimal scale [10^D]
    and build mode ([cfg!(debug_assertions)]). *)
Record config := {
  c_kind : kind;
  c_scale : Z;
  c_dbg : bool;
  c_start : Z;       (* starting_wallet_balance *)
  c_max : Z;         (* max_num_open_orders *)
  c_spec : contract;
  c_sample_s : Z     (* sample_returns_every_n_seconds *)
}.

(** src/types/order_status.rs:57-74 *)
Inductive filled_quantity :=
| Unfilled
| FilledQ (cum avg : Z).

(** src/types/limit_order.rs:21-52 with state [NewOrder].  [re_pricing] has a single value
    (src/types/re_pricing.rs) and is dropped.  User order ids are integers here; the code only
    compares them for equality. *)
Record new_limit := {
  nl_uid : Z;
  nl_side : side;
  nl_price : Z;
  nl_rem : Z
}.

(** src/types/limit_order.rs:21-52 with state [Pending] (order_status.rs:14-27, order_meta.rs). *)
Record limit_order := {
  lo_uid : Z;
  lo_side : side;
  lo_price : Z;
  lo_rem : Z;
  lo_id : Z;          (* state.meta.id *)
  lo_ts : Z;          (* state.meta.ts_exchange_received *)
  lo_filled : filled_quantity
}.

(** src/types/limit_order.rs:21-52 with state [Filled] (order_status.rs:98-120). *)
Record filled_limit := {
  fl_uid : Z;
  fl_side : side;
  fl_price : Z;
  fl_rem : Z;
  fl_id : Z;
  fl_ts : Z;
  fl_exec_ts : Z;
  fl_avg : Z;
  fl_qty : Z
}.

(** src/types/market_order.rs:15-41 with state [NewOrder]. *)
Record new_market := {
  nm_uid : Z;
  nm_side : side;
  nm_qty : Z
}.

(** src/types/market_order.rs:15-41 with state [Filled]. *)
Record filled_market := {
  fm_uid : Z;
  fm_side : side;
  fm_qty : Z;
  fm_id : Z;
  fm_ts : Z;
  fm_exec_ts : Z;
  fm_avg : Z;
  fm_filled : Z
}.

(** src/types/order_update.rs:4-15 *)
Inductive order_update :=
| PartiallyFilled (o : limit_order)
| FullyFilled (o : filled_limit).

(** [#[derive(PartialEq)]] on orders and order books: structural equality. *)
Definition side_eq_dec (a b : side) : {a = b} + {a <> b}.
Proof. decide equality. Defined.
Definition filled_quantity_eq_dec (a b : filled_quantity) : {a = b} + {a <> b}.
Proof. decide equality; apply Z.eq_dec. Defined.
Definition limit_order_eq_dec (a b : limit_order) : {a = b} + {a <> b}.
Proof. decide equality; solve [apply Z.eq_dec | apply side_eq_dec | apply filled_quantity_eq_dec]. Defined.
Definition orders_eq_dec (a b : list limit_order) : {a = b} + {a <> b} :=
  list_eq_dec limit_order_eq_dec a b.
Definition orders_eqb (a b : list limit_order) : bool :=
  if orders_eq_dec a b then true else false.
