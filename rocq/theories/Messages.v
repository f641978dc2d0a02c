(** The texts of errors and of executed market orders.  As in Printed.v, [num] prints decimals; [usr] is the derived [Debug] of the user's order ids.
    Not modelled: [Debug] of errors. *)
From Coq Require Import String.
From Verif Require Import Base Types Position OrderBook MarketUpdate Exchange Printed.
Open Scope string_scope.

(** src/types/errors/filter.rs:4-16; the payload of the third is not printed. *)
Definition filter_text (e : filter_error) : string :=
  match e with
  | MarketUpdatePriceTooLow => "Some price in MarketUpdate is too low."
  | MarketUpdatePriceTooHigh => "Some price in MarketUpdate is too high."
  | MarketUpdatePriceStepSize => "Some price in MarketUpdate does not conform to the step size"
  | InvalidMarketUpdateBidAskSpread => "The bid ask spread does not exist in this MarketUpdate."
  end.
(** src/types/errors/config.rs:4-31 *)
Definition config_text (e : config_error) : string :=
  match e with
  | InvalidLeverage => "The specified leverage must be > 0"
  | InvalidStartingBalance => "The provided starting balance must be > 0"
  | InvalidMaxNumOpenOrders => "The max_num_open_orders must be > 0"
  | InvalidMinQuantity => "The chosen `tick_size` of the quantity filter does not work with the chosen `min_quantity`. `min_quantity` must be a multiple of `step_size`"
  | InvalidMinPrice => "The chosen `min_price` must work with the chosen `tick_size`"
  | InvalidTickSize => "The chosen `tick` size is invalid."
  | InvalidUpMultiplier => "The chosen `multiplier_up` must be greater than 1"
  | InvalidDownMultiplier => "The chosen `multiplier_down` must be smaller than 1"
  | InvalidMaintenanceMarginFraction => "The maintenance margin fraction is invalid"
  end.
(** src/types/errors/order.rs:4-40.  The two prices of a rejected order, src/exchange.rs:356-366, are the limit price [p] and the best price [away] of the other side. *)
Definition order_text (num : Z -> string) (p away : Z) (e : order_error) : string :=
  match e with
  | LimitPriceBelowMultiple => "The limit order price is lower than the low price multiple."
  | LimitPriceBelowMin => "The limit order price is lower than the minimum price filter."
  | LimitPriceLTEZero => "The limit price is less than or equal zero."
  | LimitPriceAboveMultiple => "The limit order price exceeds the maximum price multiple."
  | LimitPriceAboveMax => "The limit price is above the maximum price."
  | GoodTillCrossingRejectedOrder =>
      "The limit order `RePricing` was `GoodTillCrossing` leading to its rejection as the limit_price " ++ show_quote num p ++
      " locks or crosses the away market quotation price " ++ show_quote num away
  | InvalidOrderPriceStepSize => "The order price does not conform to the step size."
  | OrderQuantityLTEZero => "order size is less than or equal zero."
  | QuantityTooLow => "The order quantity is too low"
  | QuantityTooHigh => "The order quantity is too high"
  | InvalidQuantityStepSize => "The order quantity does not conform to the step size"
  end.
(** src/types/errors/risk.rs:4-10 *)
Definition risk_text (e : risk_error) : string :=
  match e with NotEnoughAvailableBalance => "The `Trader` does not have enough balance." | Liquidate => "The position will be liquidated!" end.

(** src/types/errors/main.rs:7-49: the errors of exchange calls and all others. *)
Inductive any_error :=
| AFilter (e : filter_error)
| AConfig (e : config_error)
| ACall (e : error)
| AAccountLookupFailure
| AWrongDecimalPrecision
| AIntegerConversion
| AUnableToCreateDecimal.
Definition call_text (num : Z -> string) (p away : Z) (e : error) : string :=
  match e with
  | EOrder x => order_text num p away x
  | ERisk x => risk_text x
  | EUserOrderIdNotFound => "user order id not found"
  | EOrderIdNotFound _ => "internal order id not found"
  | EOrderNoLongerActive => "The order is no longer active"
  | EAmendQtyAlreadyFilled => "The amended order quantity has already been filled in the original order. Remaining order was cancelled."
  | EMaxNumberOfActiveOrders => "The maximum number of active orders is reached"
  end.
Definition error_text (num : Z -> string) (p away : Z) (e : any_error) : string :=
  match e with
  | AFilter x => filter_text x
  | AConfig x => config_text x
  | ACall x => call_text num p away x
  | AAccountLookupFailure => "Failed to lookup account."
  | AWrongDecimalPrecision => "The constant decimal precision is incompatible"
  | AIntegerConversion => "Could not convert the in"
  | AUnableToCreateDecimal => "Unable to create `Decimal`"
  end.

(** src/types/market_order.rs:42-58 for an executed order, whose state is printed by src/types/order_status.rs:143-155. *)
Definition print_market_order (k : kind) (num usr : Z -> string) (o : filled_market) : string :=
  "user_order_id: " ++ usr (fm_uid o) ++ ", side: " ++ show_side (fm_side o) ++ ", quantity: " ++ show_qty k num (fm_qty o) ++ ", state: " ++
  ("Filled( meta: " ++ print_meta (fm_id o) (fm_ts o) ++ ", ts_ns_executed: " ++ show_int (fm_exec_ts o) ++ ", avg_fill_price: " ++ show_quote num (fm_avg o) ++
   ", filled_qty: " ++ show_qty k num (fm_filled o) ++ ")").
