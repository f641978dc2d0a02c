(** The isolated margin risk engine. *)
From Verif Require Import Base Types Accounting Currency Position OrderBook OrderMargin.

(** src/risk_engine/isolated_margin.rs:122-169 and 171-217, [check_market_buy_order] and
    [check_market_sell_order]: the two functions are mirror images; [same_direction] is the branch
    [Neutral | Long] for buys, [Neutral | Short] for sells.
    (The asserts on the order side at 133 and 182 hold by the dispatch at 47-62.) *)
Definition check_market_open (c : config) (qty price wallet : Z) : outcome (result risk_error unit) :=
  let s := c_scale c in
  notional <- convert_from (c_kind c) s qty price ;;
  let margin_req := dmul s notional (ct_imr (c_spec c)) in
  let fee := dmul s notional (ct_taker (c_spec c)) in
  Done (if wallet <? margin_req + fee then Err NotEnoughAvailableBalance else Ok tt).

Definition check_market_reduce (c : config) (inner : position_inner) (position_margin qty price wallet : Z)
  : outcome (result risk_error unit) :=
  let s := c_scale c in
  if qty <=? pi_qty inner then Done (Ok tt) else
  let new_size := qty - pi_qty inner in
  new_notional <- convert_from (c_kind c) s new_size price ;;
  let new_margin_req := dmul s new_notional (ct_imr (c_spec c)) in
  let fee := dmul s new_notional (ct_taker (c_spec c)) in
  Done (if wallet + position_margin <? new_margin_req + fee
        then Err NotEnoughAvailableBalance else Ok tt).

(** src/risk_engine/isolated_margin.rs:39-63, [check_market_order]. *)
Definition check_market_order (c : config) (pos : position) (position_margin : Z)
  (sd : side) (qty price wallet : Z) : outcome (result risk_error unit) :=
  match sd, pos with
  | Buy, Short inner => check_market_reduce c inner position_margin qty price wallet
  | Sell, Long inner => check_market_reduce c inner position_margin qty price wallet
  | _, _ => check_market_open c qty price wallet
  end.

(** src/risk_engine/isolated_margin.rs:65-86, [check_limit_order]. *)
Definition check_limit_order (c : config) (pos : position) (o : limit_order) (wallet : Z)
  (book : list limit_order) : outcome (result risk_error unit) :=
  om <- order_margin c book pos ;;
  new_om <- order_margin_with_order c book pos o ;;
  Done (if wallet + om <? new_om then Err NotEnoughAvailableBalance else Ok tt).

(** src/risk_engine/isolated_margin.rs:88-114, [check_maintenance_margin]. *)
Definition check_maintenance_margin (c : config) (bid ask : Z) (pos : position)
  : result risk_error unit :=
  let s := c_scale c in
  let mm := ct_mm (c_spec c) in
  match pos with
  | Neutral => Ok tt
  | Long inner =>
      if bid <? liquidation_price_long s (pi_entry inner) mm then Err Liquidate else Ok tt
  | Short inner =>
      if liquidation_price_short s (pi_entry inner) mm <? ask then Err Liquidate else Ok tt
  end.
