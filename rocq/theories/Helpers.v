(** Public helpers of the currency types that the exchange itself does not call. *)
From Verif Require Import Base Types Currency.

(** [MarginCurrency::price_paid_for_qty(total_cost, quantity)]:
    linear  src/types/smol_currency/quote_currency.rs:129-135, [total_cost / quantity];
    inverse src/types/smol_currency/base_currency.rs:112-117, [quantity / total_cost]. *)
Definition price_paid_for_qty (k : kind) (s cost qty : Z) : outcome Z :=
  match k with
  | Linear => if qty =? 0 then Done 0 else ddiv s cost qty
  | Inverse => if cost =? 0 then Done 0 else ddiv s qty cost
  end.

(** [quantize_round_to_zero], src/types/smol_currency/quote_currency.rs:86-90 and base_currency.rs:68-72: the largest
    multiple of the quantum towards zero; const_decimal computes it with the remainder. *)
Definition quantize_round_to_zero (v quantum : Z) : outcome Z :=
  r <- drem v quantum ;; Done (v - r).

(** [Signed], src/types/smol_currency/quote_currency.rs:180-212 and base_currency.rs:162-194; [s] is the decimal one.
    [abs_sub] of const_decimal is not modelled. *)
Definition currency_abs (v : Z) : Z := Z.abs v.
Definition currency_signum (s v : Z) : Z := match v ?= 0 with Lt => - s | Eq => 0 | Gt => s end.
Definition currency_is_positive (v : Z) : bool := 0 <? v.
Definition currency_is_negative (v : Z) : bool := v <? 0.

(** [Decimal::try_from_scaled(integer, scale)] of const_decimal: the value [integer / 10^scale].  The crate is not part of
    the repository and nothing in the repository shows what it does with a value that needs more than [D] decimals, so
    both possibilities are kept: to refuse it or to cut it off. *)
Inductive inexact := Refuse | CutOff.
Definition try_from_scaled (m : inexact) (s integer : Z) (scale : nat) : option Z :=
  let v := Z.quot (integer * s) (10 ^ Z.of_nat scale) in
  if v * 10 ^ Z.of_nat scale =? integer * s then Some v
  else match m with Refuse => None | CutOff => Some v end.

(** src/types/smol_currency/quote_currency.rs:45-47 and base_currency.rs:46-51, [new(integer, scale)]. *)
Definition currency_new (m : inexact) (s integer : Z) (scale : nat) : outcome Z :=
  match try_from_scaled m s integer scale with Some v => Done v | None => Panic PNewScale end.
