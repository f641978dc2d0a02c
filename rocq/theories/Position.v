(** The position of the user. *)
From Verif Require Import Base Types Accounting Currency.

(** src/position_inner.rs:18-35 *)
Record position_inner := { pi_qty : Z; pi_entry : Z; pi_fees : Z }.

(** src/position.rs:12-26 *)
Inductive position :=
| Neutral
| Long (inner : position_inner)
| Short (inner : position_inner).

(** src/position_inner.rs:74-101, [PositionInner::new]. *)
Definition inner_new (c : config) (acc : accounts) (qty price fees : Z)
  : outcome (position_inner * accounts) :=
  let s := c_scale c in
  _ <- assert (0 <? qty) PNewPosQty ;;
  _ <- assert (0 <? price) PNewPosPrice ;;
  value <- convert_from (c_kind c) s qty price ;;
  let margin := dmul s value (ct_imr (c_spec c)) in
  acc1 <- transfer (c_dbg c) acc POSITION_MARGIN WALLET margin ;;
  Done ({| pi_qty := qty; pi_entry := price; pi_fees := fees |}, acc1).

(** src/position_inner.rs:105-107, [total_cost]. *)
Definition inner_total_cost (c : config) (p : position_inner) : outcome Z :=
  convert_from (c_kind c) (c_scale c) (pi_qty p) (pi_entry p).

(** src/position_inner.rs:112-117, [unrealized_pnl]. *)
Definition inner_unrealized_pnl (c : config) (p : position_inner) (mark : Z) : outcome Z :=
  pnl (c_kind c) (c_scale c) (pi_entry p) mark (pi_qty p).

(** src/position_inner.rs:120-155, [increase_contracts]. *)
Definition increase_contracts (c : config) (p : position_inner) (acc : accounts)
  (qty price fees : Z) : outcome (position_inner * accounts) :=
  let s := c_scale c in
  _ <- assert (0 <? qty) PIncQty ;;
  _ <- assert (0 <? price) PIncPrice ;;
  value <- convert_from (c_kind c) s qty price ;;
  entry <- new_weighted_price s (pi_entry p) (pi_qty p) price qty ;;
  let margin := dmul s value (ct_imr (c_spec c)) in
  acc1 <- transfer (c_dbg c) acc POSITION_MARGIN WALLET margin ;;
  Done ({| pi_qty := pi_qty p + qty; pi_entry := entry; pi_fees := pi_fees p + fees |}, acc1).

(** src/position_inner.rs:158-228, [decrease_contracts].  [long] is the direction multiplier
    being [1]; the check [direction_multiplier == 1 || == -1] (175) is true at all call sites. *)
Definition decrease_contracts (c : config) (p : position_inner) (acc : accounts)
  (qty price : Z) (long : bool) (fees : Z) : outcome (position_inner * accounts) :=
  let s := c_scale c in
  let dbg := c_dbg c in
  _ <- assert (0 <? qty) PDecQty ;;
  _ <- assert (qty <=? pi_qty p) PDecQtyTooLarge ;;
  let entry := pi_entry p in
  let qty' := pi_qty p - qty in
  let fees' := pi_fees p + fees in
  _ <- debug_assert dbg (0 <=? qty') PDecQtyNegDebug ;;
  profit <- pnl (c_kind c) s entry price (if long then qty else - qty) ;;
  acc1 <- match profit ?= 0 with
          | Gt => transfer dbg acc WALLET TREASURY profit
          | Lt => transfer dbg acc TREASURY WALLET (Z.abs profit)
          | Eq => Done acc
          end ;;
  value <- convert_from (c_kind c) s qty entry ;;
  let margin_to_free := dmul s value (ct_imr (c_spec c)) in
  _ <- debug_assert dbg (0 <? margin_to_free) PMarginToFreeDebug ;;
  acc2 <- transfer dbg acc1 WALLET POSITION_MARGIN margin_to_free ;;
  if 0 <? fees' then
    acc3 <- transfer dbg acc2 FEE WALLET fees' ;;
    Done ({| pi_qty := qty'; pi_entry := entry; pi_fees := 0 |}, acc3)
  else
    Done ({| pi_qty := qty'; pi_entry := entry; pi_fees := fees' |}, acc2).

(** src/position.rs:48-54 *)
Definition position_quantity (p : position) : Z :=
  match p with Neutral => 0 | Long i => pi_qty i | Short i => - pi_qty i end.

(** src/position.rs:57-63 *)
Definition position_outstanding_fees (p : position) : Z :=
  match p with Neutral => 0 | Long i => pi_fees i | Short i => pi_fees i end.

(** src/position.rs:66-72 *)
Definition position_entry_price (p : position) : Z :=
  match p with Neutral => 0 | Long i => pi_entry i | Short i => pi_entry i end.

(** src/position.rs:75-81 *)
Definition position_total_cost (c : config) (p : position) : outcome Z :=
  match p with
  | Neutral => Done 0
  | Long i => inner_total_cost c i
  | Short i => inner_total_cost c i
  end.

(** src/position.rs:35-45 *)
Definition position_unrealized_pnl (c : config) (p : position) (bid ask : Z) : outcome Z :=
  match p with
  | Neutral => Done 0
  | Long i => inner_unrealized_pnl c i bid
  | Short i => v <- inner_unrealized_pnl c i ask ;; Done (- v)
  end.

(** src/position.rs:85-260, [change_position]. *)
Definition change_position (c : config) (pos : position) (acc : accounts)
  (qty price : Z) (sd : side) (fees : Z) : outcome (position * accounts) :=
  let dbg := c_dbg c in
  _ <- debug_assert dbg (0 <? qty) PFillQtyPosDebug ;;
  match pos with
  | Neutral =>
      _ <- debug_assert dbg (margin_balance_of acc POSITION_MARGIN =? 0) PNeutralMarginDebug ;;
      '(i, acc1) <- inner_new c acc qty price fees ;;
      match sd with
      | Buy => Done (Long i, acc1)
      | Sell => Done (Short i, acc1)
      end
  | Long inner =>
      match sd with
      | Buy =>
          '(i, acc1) <- increase_contracts c inner acc qty price fees ;;
          Done (Long i, acc1)
      | Sell =>
          match qty ?= pi_qty inner with
          | Lt =>
              '(i, acc1) <- decrease_contracts c inner acc qty price true fees ;;
              Done (Long i, acc1)
          | Eq =>
              '(i, acc1) <- decrease_contracts c inner acc qty price true fees ;;
              _ <- debug_assert dbg (margin_balance_of acc1 POSITION_MARGIN =? 0) PCloseMarginDebug ;;
              Done (Neutral, acc1)
          | Gt =>
              let new_short_qty := qty - pi_qty inner in
              '(i, acc1) <- decrease_contracts c inner acc (pi_qty inner) price true fees ;;
              _ <- assert (pi_qty i =? 0) PFlipQty ;;
              _ <- assert (margin_balance_of acc1 POSITION_MARGIN =? 0) PFlipMargin ;;
              '(j, acc2) <- inner_new c acc1 new_short_qty price 0 ;;
              Done (Short j, acc2)
          end
      end
  | Short inner =>
      match sd with
      | Buy =>
          match qty ?= pi_qty inner with
          | Lt =>
              '(i, acc1) <- decrease_contracts c inner acc qty price false fees ;;
              Done (Short i, acc1)
          | Eq =>
              '(i, acc1) <- decrease_contracts c inner acc qty price false fees ;;
              _ <- debug_assert dbg (margin_balance_of acc1 POSITION_MARGIN =? 0) PCloseMarginDebug ;;
              Done (Neutral, acc1)
          | Gt =>
              let new_long_qty := qty - pi_qty inner in
              '(i, acc1) <- decrease_contracts c inner acc (pi_qty inner) price false fees ;;
              _ <- assert (pi_qty i =? 0) PFlipQty ;;
              _ <- assert (margin_balance_of acc1 POSITION_MARGIN =? 0) PFlipMargin ;;
              '(j, acc2) <- inner_new c acc1 new_long_qty price 0 ;;
              Done (Long j, acc2)
          end
      | Sell =>
          '(i, acc1) <- increase_contracts c inner acc qty price fees ;;
          Done (Short i, acc1)
      end
  end.
