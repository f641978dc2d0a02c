(** Currency conversions and profit and loss. *)
From Verif Require Import Base Types.

(** [MarginCurrency::convert_from(units, price)]:
    linear  src/types/smol_currency/quote_currency.rs:102-104, [units * price];
    inverse src/types/smol_currency/base_currency.rs:86-88, [units / price]. *)
Definition convert_from (k : kind) (s units price : Z) : outcome Z :=
  match k with
  | Linear => Done (dmul s units price)
  | Inverse => ddiv s units price
  end.

(** [PairedCurrency::convert_from(margin, price)], the opposite conversion
    (same source lines, used only by src/account_tracker/full_track.rs:146-147). *)
Definition convert_paired (k : kind) (s units price : Z) : outcome Z :=
  match k with
  | Linear => ddiv s units price
  | Inverse => Done (dmul s units price)
  end.

(** [MarginCurrency::pnl(entry, exit, quantity)]:
    linear  src/types/smol_currency/quote_currency.rs:117-127;
    inverse src/types/smol_currency/base_currency.rs:100-110. *)
Definition pnl (k : kind) (s entry exit qty : Z) : outcome Z :=
  if qty =? 0 then Done 0 else
  match k with
  | Linear =>
      a <- convert_from Linear s qty exit ;;
      b <- convert_from Linear s qty entry ;;
      Done (a - b)
  | Inverse =>
      a <- convert_from Inverse s qty entry ;;
      b <- convert_from Inverse s qty exit ;;
      Done (a - b)
  end.

(** src/types/smol_currency/quote_currency.rs:51-53 *)
Definition liquidation_price_long (s price mm : Z) : Z := dmul s price (s - mm).
(** src/types/smol_currency/quote_currency.rs:56-58 *)
Definition liquidation_price_short (s price mm : Z) : Z := dmul s price (s + mm).

(** src/types/smol_currency/quote_currency.rs:60-68, [new_weighted_price]. *)
Definition new_weighted_price (s p0 w0 p1 w1 : Z) : outcome Z :=
  let total_weight := w0 + w1 in
  ddiv s (dmul s p0 w0 + dmul s p1 w1) total_weight.
