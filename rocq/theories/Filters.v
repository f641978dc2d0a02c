(** Filters and constructors of configuration and orders. *)
From Verif Require Import Base Types.

(** src/order_filters/price_filter.rs:85-117, [PriceFilter::new].
    The remainder is taken before the zero check of the tick size, exactly as in the code. *)
Definition price_filter_new (s : Z) (min max : option Z) (tick up down : Z)
  : outcome (result config_error price_filter) :=
  bad_min <- match min with
             | Some m => r <- drem m tick ;; Done (negb (r =? 0))
             | None => Done false
             end ;;
  if bad_min then Done (Err InvalidMinPrice)
  else if tick =? 0 then Done (Err InvalidTickSize)
  else if up <=? s then Done (Err InvalidUpMultiplier)
  else if s <=? down then Done (Err InvalidDownMultiplier)
  else Done (Ok {| pf_min := min; pf_max := max; pf_tick := tick; pf_up := up; pf_down := down |}).

(** src/order_filters/price_filter.rs:40-53, [Default]. *)
Definition price_filter_default (s : Z) : price_filter :=
  {| pf_min := None; pf_max := None; pf_tick := s; pf_up := 2 * s; pf_down := 0 |}.

(** src/order_filters/price_filter.rs:120-156, [validate_limit_price]. *)
Definition validate_limit_price (s : Z) (f : price_filter) (limit mark : Z)
  : outcome (result order_error unit) :=
  if limit <=? 0 then Done (Err LimitPriceBelowMin) else
  if match pf_max f with Some m => m <? limit | None => false end
  then Done (Err LimitPriceAboveMax) else
  if match pf_min f with Some m => limit <? m | None => false end
  then Done (Err LimitPriceBelowMin) else
  let min_price := match pf_min f with Some m => m | None => 0 end in
  r <- drem (limit - min_price) (pf_tick f) ;;
  if negb (r =? 0) then Done (Err InvalidOrderPriceStepSize) else
  if (dmul s mark (pf_up f) <? limit) && negb (pf_up f =? 0)
  then Done (Err LimitPriceAboveMultiple) else
  if (limit <? dmul s mark (pf_down f)) && negb (pf_down f =? 0)
  then Done (Err LimitPriceBelowMultiple) else
  Done (Ok tt).

(** src/order_filters/price_filter.rs:160-171 *)
Definition enforce_bid_ask_spread (bid ask : Z) : result filter_error unit :=
  if ask <=? bid then Err InvalidMarketUpdateBidAskSpread else Ok tt.

(** src/order_filters/price_filter.rs:175-188 *)
Definition enforce_min_price (min : option Z) (price : Z) : result filter_error unit :=
  match min with
  | Some m => if (price <? m) && negb (m =? 0) then Err MarketUpdatePriceTooLow else Ok tt
  | None => Ok tt
  end.

(** src/order_filters/price_filter.rs:192-205 *)
Definition enforce_max_price (max : option Z) (price : Z) : result filter_error unit :=
  match max with
  | Some m => if (m <? price) && negb (m =? 0) then Err MarketUpdatePriceTooHigh else Ok tt
  | None => Ok tt
  end.

(** src/order_filters/price_filter.rs:208-222 *)
Definition enforce_step_size (step price : Z) : outcome (result filter_error unit) :=
  r <- drem price step ;;
  Done (if negb (r =? 0) then Err MarketUpdatePriceStepSize else Ok tt).

(** src/order_filters/quantity_filter.rs:53-73, [QuantityFilter::new]. *)
Definition quantity_filter_new (min max : option Z) (tick : Z)
  : outcome (result config_error quantity_filter) :=
  bad_min <- match min with
             | Some m => r <- drem m tick ;; Done (negb (r =? 0))
             | None => Done false
             end ;;
  if bad_min then Done (Err InvalidMinQuantity)
  else if tick =? 0 then Done (Err InvalidTickSize)
  else Done (Ok {| qf_min := min; qf_max := max; qf_tick := tick |}).

(** src/order_filters/quantity_filter.rs:31-44, [Default]. *)
Definition quantity_filter_default (s : Z) : quantity_filter :=
  {| qf_min := None; qf_max := None; qf_tick := s |}.

(** src/order_filters/quantity_filter.rs:75-102, [validate_order_quantity]. *)
Definition validate_order_quantity (f : quantity_filter) (q : Z)
  : outcome (result order_error unit) :=
  if q =? 0 then Done (Err QuantityTooLow) else
  if match qf_max f with Some m => m <? q | None => false end
  then Done (Err QuantityTooHigh) else
  if match qf_min f with Some m => q <? m | None => false end
  then Done (Err QuantityTooLow) else
  let min_qty := match qf_min f with Some m => m | None => 0 end in
  r <- drem (q - min_qty) (qf_tick f) ;;
  if negb (r =? 0) then Done (Err InvalidQuantityStepSize) else Done (Ok tt).

(** src/types/leverage.rs:28-36, [Leverage::new]; the result is the decimal value of the
    leverage.  The argument is a [u8], i.e. 0..255. *)
Definition leverage_new (s val : Z) : result config_error Z :=
  if val <? 1 then Err InvalidLeverage else Ok (val * s).

(** src/types/leverage.rs:40-42, [init_margin_req]. *)
Definition init_margin_req (s lev : Z) : outcome Z := ddiv s s lev.

(** src/contract_specification.rs:74-98, [ContractSpecification::new]. *)
Definition contract_new (s lev fraction : Z) (pf : price_filter) (qf : quantity_filter)
  (maker taker : Z) : outcome (result config_error contract) :=
  if (s <? fraction) || (fraction <=? 0) then Done (Err InvalidMaintenanceMarginFraction)
  else
    imr <- init_margin_req s lev ;;
    Done (Ok {| ct_imr := imr; ct_mm := dmul s imr fraction; ct_pf := pf; ct_qf := qf;
                ct_maker := maker; ct_taker := taker |}).

(** src/config.rs:61-80, [Config::new]; [k], [s] and [dbg] are compile time parameters. *)
Definition config_new (k : kind) (s : Z) (dbg : bool) (start max : Z) (ct : contract) (sample_s : Z)
  : result config_error config :=
  if max =? 0 then Err InvalidMaxNumOpenOrders
  else if start <=? 0 then Err InvalidStartingBalance
  else Ok {| c_kind := k; c_scale := s; c_dbg := dbg; c_start := start; c_max := max;
             c_spec := ct; c_sample_s := sample_s |}.

(** src/types/limit_order.rs:125-145, [new_with_user_order_id] ([new] at 86-105 is the same
    with the unit user order id). *)
Definition limit_new (sd : side) (price qty uid : Z) : result order_error new_limit :=
  if price <=? 0 then Err LimitPriceLTEZero
  else if qty <=? 0 then Err OrderQuantityLTEZero
  else Ok {| nl_uid := uid; nl_side := sd; nl_price := price; nl_rem := qty |}.

(** src/types/market_order.rs:95-110, [new_with_user_order_id] ([new] at 73-84 uses the default
    user order id). *)
Definition market_new (sd : side) (qty uid : Z) : result order_error new_market :=
  if qty <=? 0 then Err OrderQuantityLTEZero
  else Ok {| nm_uid := uid; nm_side := sd; nm_qty := qty |}.
