(** Properties C46, C47. *)
From Verif Require Import Base Types Accounting Position Exchange Spec SpecEquity Scenario ScenarioEquity EquityProof EquityCor.

(** C46: for linear contracts the account shows, at any mark price [m], the starting money plus the
    profit of every single fill marked at [m]: up to the rounding allowance, and exactly if no fill
    needs rounding.  Fees paid are added back. *)
Theorem C46_equity_marked : forall c ops e outs m,
  c_kind c = Linear -> 0 < c_scale c -> 0 <= c_max c <= 10000 -> no_check ops -> history c ops e outs ->
  let fs := reported_fills c ops outs in
  Z.abs (shown_equity c m e - (c_scale c * c_start c + marked_profit m fs)) <= rounding (c_scale c) 0 fs /\
  (even_fills (c_scale c) (ledger_start (c_start c)) fs ->
   shown_equity c m e = c_scale c * c_start c + marked_profit m fs).
Proof. exact equity_marked. Qed.
Print Assumptions C46_equity_marked.

(** The demo history up to the flip: four fills, then a short of two at 102, marked at 120. *)
Example C46_case :
  match play (demo_cfg Linear true) (firstn 11 demo_ops) with
  | Done (e, outs) =>
      let fs := reported_fills (demo_cfg Linear true) (firstn 11 demo_ops) outs in
      length fs = 4%nat /\ position_quantity (ex_pos e) = - d 2 /\
      marked_profit (d 120) fs = -3100000000 /\
      shown_equity (demo_cfg Linear true) (d 120) e - S4 * d 1000 = -3100000000 /\
      rounding S4 0 fs = 140000
  | Panic _ => False
  end.
Proof. vm_compute. repeat split. Qed.

(** C46: if no buy was below and no sell above the mark price, trading has not made money beyond the
    rounding allowance. *)
Theorem C46_no_money_from_nothing : forall c ops e outs m,
  c_kind c = Linear -> 0 < c_scale c -> 0 <= c_max c <= 10000 -> no_check ops -> history c ops e outs ->
  Forall (no_edge m) (reported_fills c ops outs) ->
  let fs := reported_fills c ops outs in
  shown_equity c m e <= c_scale c * c_start c + rounding (c_scale c) 0 fs /\
  (even_fills (c_scale c) (ledger_start (c_start c)) fs -> shown_equity c m e <= c_scale c * c_start c).
Proof. exact equity_bounded. Qed.
Print Assumptions C46_no_money_from_nothing.

(** C46, refuted without the allowance: under constant quotes, round trips of two buys and one sell make
    money out of the truncated entry price.  One decimal place, both builds. *)
Theorem C46_pump_refuted : forall dbg, exists e outs,
  history (tiny Linear dbg) pump_ops e outs /\ no_check pump_ops /\
  (forall r, In (OpUpdate r) pump_ops -> quote_of r = Some (18, 19)) /\
  ex_pos e = Neutral /\ Forall (no_edge 18) (reported_fills (tiny Linear dbg) pump_ops outs) /\
  wealth_of e = c_start (tiny Linear dbg) + 100.
Proof. exact pump. Qed.
Print Assumptions C46_pump_refuted.

(** C47: adding to an inverse position at another price never increases, beyond one unit, its value at
    entry above what the parts were worth: longs lose and shorts win the difference. *)
Theorem C47_inverse_average_one_sided : forall s l f,
  0 < s -> 0 < l_entry l -> 0 < f_price f -> 0 < f_qty f -> l_qty l <> 0 -> Z.sgn (l_qty l) = Z.sgn (signed_qty f) ->
  let l' := apply_fill Inverse s l f in
  l_entry l' * Z.abs (l_qty l') = l_entry l * Z.abs (l_qty l) + f_price f * f_qty f ->
  value Inverse s (Z.abs (l_qty l')) (l_entry l') <=
  value Inverse s (Z.abs (l_qty l)) (l_entry l) + value Inverse s (f_qty f) (f_price f) + 1.
Proof. exact inverse_add_cost. Qed.
Print Assumptions C47_inverse_average_one_sided.

Example C47_case :
  let l := {| l_qty := - d 300; l_entry := d 300; l_due := 0; l_cash := 0; l_paid := 0 |} in
  let f := {| f_side := Sell; f_qty := d 300; f_price := d 100; f_rate := 0 |} in
  let l' := apply_fill Inverse S4 l f in
  l_entry l' * Z.abs (l_qty l') = l_entry l * Z.abs (l_qty l) + f_price f * f_qty f /\
  value Inverse S4 (Z.abs (l_qty l')) (l_entry l') = d 3 /\
  value Inverse S4 (Z.abs (l_qty l)) (l_entry l) + value Inverse S4 (f_qty f) (f_price f) = d 4.
Proof. vm_compute. repeat split. Qed.

(** C47, refuted: the profit of an inverse position is not what was received minus what was paid.  A
    short sold for 1 + 3 and bought back for 6 earns 3 instead of 2; the debug build panics instead. *)
Theorem C47_inverse_profit_refuted :
  (exists e outs,
    history (short_cfg false) short_ops e outs /\ no_check short_ops /\
    map (fun f => (f_side f, f_qty f, f_price f)) (reported_fills (short_cfg false) short_ops outs) =
      [(Sell, d 300, d 300); (Sell, d 300, d 100); (Buy, d 600, d 100)] /\
    ex_pos e = Neutral /\
    value Inverse S4 (d 600) (d 100) - value Inverse S4 (d 300) (d 300) - value Inverse S4 (d 300) (d 100) = d 2 /\
    wealth_of e = c_start (short_cfg false) + d 3) /\
  play (short_cfg true) short_ops = Panic PCloseMarginDebug.
Proof. exact inverse_gap. Qed.
Print Assumptions C47_inverse_profit_refuted.
