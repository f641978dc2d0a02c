(** Independent definitions about equity: fills valued one by one at a mark price, without average entry
    prices.  Linear contracts. *)
From Verif Require Import Base Types Accounting Position MarketUpdate Exchange Spec.

(** Profit of all fills at the mark price [m], in units of [1 / scale] and without any rounding: every
    contract bought at [p] gains [m - p], every contract sold gains [p - m]. *)
Definition marked_profit (m : Z) (fs : list fill) : Z :=
  sumZ (map (fun f => signed_qty f * (m - f_price f)) fs).

(** What the account shows at the mark price [m], in units of [1 / scale]: all money of the user including
    the fees already paid, and the open position. *)
Definition shown_equity (c : config) (m : Z) (e : exchange) : Z :=
  c_scale c * (wealth_of e + fees_paid e) +
  position_quantity (ex_pos e) * (m - position_entry_price (ex_pos e)).

(** Rounding allowance of a list of fills, in units of [1 / scale]: two units of the last decimal place each, and one unit of
    price for the position after the fill. *)
Fixpoint rounding (s held : Z) (fs : list fill) : Z :=
  match fs with
  | [] => 0
  | f :: r => let h := held + signed_qty f in 2 * s + Z.abs h + rounding s h r
  end.

(** A fill for which nothing is rounded: [held] contracts at the average price [entry]. *)
Definition even_fill (s held entry : Z) (f : fill) : Prop :=
  if held =? 0 then True
  else if Z.sgn held =? Z.sgn (signed_qty f) then
    (s | Z.abs held * entry) /\ (s | f_qty f * f_price f) /\
    (Z.abs held + f_qty f | Z.abs held * entry + f_qty f * f_price f)
  else
    let closed := Z.min (Z.abs held) (f_qty f) in (s | closed * entry) /\ (s | closed * f_price f).

Fixpoint even_fills (s : Z) (l : ledger) (fs : list fill) : Prop :=
  match fs with
  | [] => True
  | f :: r => even_fill s (l_qty l) (l_entry l) f /\ even_fills s (apply_fill Linear s l f) r
  end.

(** Buys not below and sells not above the mark price. *)
Definition no_edge (m : Z) (f : fill) : Prop :=
  match f_side f with Buy => m <= f_price f | Sell => f_price f <= m end.
