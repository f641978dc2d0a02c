(** Independent definitions about positions: margin posted for a list of fills, mirrored fills. *)
From Verif Require Import Base Types Accounting Currency Position Exchange Spec SpecMarket.

(** ** Position margin *)
(** Margin posted after one more fill: opening and adding post the margin of the fill, reducing releases
    the margin of the closed quantity at the entry price, a flip starts anew. *)
Definition margin_after (c : config) (l : ledger) (m : Z) (f : fill) : Z :=
  let held := Z.abs (l_qty l) in
  if (l_qty l =? 0) || (Z.sgn (l_qty l) =? Z.sgn (signed_qty f)) then m + margin_at c (f_qty f) (f_price f)
  else if f_qty f <=? held then m - margin_at c (f_qty f) (l_entry l)
  else margin_at c (f_qty f - held) (f_price f).

Definition ledger_next (c : config) := apply_fill (c_kind c) (c_scale c).

Fixpoint posted (c : config) (l : ledger) (m : Z) (fs : list fill) : Z :=
  match fs with [] => m | f :: r => posted c (ledger_next c l f) (margin_after c l m f) r end.

(** The value and the margin of [q] contracts at [p] have no digits beyond the last decimal place
    (linear contracts). *)
Definition exact_at (c : config) (q p : Z) : Prop :=
  (c_scale c | q * p) /\ (c_scale c * c_scale c | q * p * ct_imr (c_spec c)).

(** A fill for which nothing is rounded. *)
Definition exact_fill (c : config) (l : ledger) (f : fill) : Prop :=
  let held := Z.abs (l_qty l) in
  if l_qty l =? 0 then exact_at c (f_qty f) (f_price f)
  else if Z.sgn (l_qty l) =? Z.sgn (signed_qty f) then
    exact_at c (f_qty f) (f_price f) /\ (c_scale c | held * l_entry l) /\
    (held + f_qty f | held * l_entry l + f_qty f * f_price f)
  else if f_qty f <=? held then exact_at c (f_qty f) (l_entry l)
  else exact_at c (f_qty f - held) (f_price f).

Fixpoint exact_fills (c : config) (l : ledger) (fs : list fill) : Prop :=
  match fs with [] => True | f :: r => exact_fill c l f /\ exact_fills c (ledger_next c l f) r end.

(** Rounding allowance of a list of fills: four units of the last decimal place each, and the margin of one
    unit of price for the position after the fill. In units of [1 / scale ^ 2]. *)
Fixpoint allowance (c : config) (l : ledger) (fs : list fill) : Z :=
  match fs with
  | [] => 0
  | f :: r => 4 * (c_scale c * c_scale c) + Z.abs (l_qty (ledger_next c l f)) * ct_imr (c_spec c) + allowance c (ledger_next c l f) r
  end.

(** ** Mirrored fills *)
Definition mirror (f : fill) : fill :=
  {| f_side := match f_side f with Buy => Sell | Sell => Buy end; f_qty := f_qty f; f_price := f_price f; f_rate := f_rate f |}.
(** Realised profit before fees. *)
Definition realised (start : Z) (l : ledger) : Z := l_cash l + l_paid l - start.

(** ** Unrealised profit *)
(** Profit of the position if closed at the quote: a long sells at the bid, a short buys at the ask. *)
Definition open_profit (c : config) (pos : position) (bid ask : Z) : Z :=
  match pos with
  | Neutral => 0
  | Long i => gain (c_kind c) (c_scale c) (pi_qty i) (pi_entry i) bid
  | Short i => - gain (c_kind c) (c_scale c) (pi_qty i) (pi_entry i) ask
  end.
(** Margin required to open the position at its entry price. *)
Definition initial_margin (c : config) (pos : position) : Z :=
  margin_at c (Z.abs (position_quantity pos)) (position_entry_price pos).

(** ** Laws of profit and loss *)
(** Closing [q] contracts (negative: short) entered at [entry] at price [exit]. *)
Definition pnl_law (k : kind) (s q entry exit : Z) : Prop :=
  exists g, pnl k s entry exit q = Done g /\ pnl k s entry exit (- q) = Done (- g) /\ pnl k s exit entry q = Done (- g) /\
    (entry = exit -> g = 0) /\ (0 <= q -> entry <= exit -> 0 <= g) /\ (0 <= q -> exit <= entry -> g <= 0).
