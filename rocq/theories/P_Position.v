(** Properties C22, C26, C27, C36, C44. *)
From Verif Require Import Base Types Accounting Currency MarketUpdate Position Exchange Spec SpecBook SpecRules SpecConfig SpecMarket SpecEntry SpecFlow
  Scenario ScenarioPanic ScenarioEntry FlowCor PnlCor PositionFacts.

(** C22, linear contracts: while the position is not due for liquidation, the unrealised loss exceeds the
    initial margin by at most two units of the last decimal place plus one such unit of price per contract. The
    latter is lost because the liquidation price is itself rounded. *)
Theorem C22_linear : forall c e bid ask,
  valid_config c -> c_kind c = Linear -> reachable c e -> 0 <= ask -> ~ due c (ex_pos e) bid ask ->
  let loss := - open_profit c (ex_pos e) bid ask in
  (loss - initial_margin c (ex_pos e) - 2) * c_scale c < Z.abs (position_quantity (ex_pos e)) /\
  ((c_scale c | position_entry_price (ex_pos e) * (c_scale c - ct_mm (c_spec c))) -> loss <= initial_margin c (ex_pos e) + 2).
Proof. exact covered_linear. Qed.
Print Assumptions C22_linear.

Example C22_case : exists e outs, history (L true) falling_ops e outs /\
  ~ due (L true) (ex_pos e) (ms_bid (ex_ms e)) (ms_ask (ex_ms e)) /\
  open_profit (L true) (ex_pos e) (ms_bid (ex_ms e)) (ms_ask (ex_ms e)) = - d 369 /\ initial_margin (L true) (ex_pos e) = d 909.
Proof. exact covered_case. Qed.

(** C22, inverse contracts: always for shorts; for longs when mm <= imr / (1 + imr). *)
Theorem C22_inverse : forall c e bid ask,
  valid_config c -> c_kind c = Inverse -> reachable c e -> 0 < bid -> 0 < ask ->
  (ex_pos e <> Neutral -> 0 < position_entry_price (ex_pos e)) ->
  match ex_pos e with
  | Long i => ct_mm (c_spec c) < c_scale c /\
      ct_mm (c_spec c) * (c_scale c + ct_imr (c_spec c)) <= ct_imr (c_spec c) * c_scale c /\
      (c_scale c | pi_entry i * (c_scale c - ct_mm (c_spec c)))
  | _ => True
  end ->
  ~ due c (ex_pos e) bid ask -> - open_profit c (ex_pos e) bid ask <= initial_margin c (ex_pos e) + 2.
Proof. exact covered_inverse. Qed.
Print Assumptions C22_inverse.

(** C22, refuted for inverse longs with a larger maintenance margin: the loss is four times the margin and the
    position is not due for liquidation. *)
Theorem C22_inverse_refuted : forall dbg, exists e outs,
  valid_config (heavy dbg) /\ history (heavy dbg) heavy_ops e outs /\
  ~ due (heavy dbg) (ex_pos e) (ms_bid (ex_ms e)) (ms_ask (ex_ms e)) /\
  initial_margin (heavy dbg) (ex_pos e) = d 1 /\ position_margin_of e = d 1 /\
  open_profit (heavy dbg) (ex_pos e) (ms_bid (ex_ms e)) (ms_ask (ex_ms e)) = - d 4.
Proof. exact uncovered. Qed.
Print Assumptions C22_inverse_refuted.

(** C26: adding to a position. The new entry price is never above both prices, it undershoots both by less than
    the rounding of the three divisions, and so does the cost; it is exact when the products are. *)
Theorem C26_entry_between : forall c l f,
  0 < c_scale c -> l_qty l <> 0 -> Z.sgn (l_qty l) = Z.sgn (signed_qty f) -> 0 < l_entry l -> 0 < f_qty f -> 0 < f_price f ->
  let s := c_scale c in let w := Z.abs (l_qty l) + f_qty f in
  let a := l_entry (ledger_next c l f) in let cost := l_entry l * Z.abs (l_qty l) + f_price f * f_qty f in
  a <= Z.max (l_entry l) (f_price f) /\ Z.min (l_entry l) (f_price f) * w <= a * w + w + 2 * s /\
  a * w <= cost <= a * w + w + 2 * s /\
  ((s | l_entry l * Z.abs (l_qty l)) -> (s | f_price f * f_qty f) ->
     Z.min (l_entry l) (f_price f) <= a /\ ((w | cost) -> a * w = cost)).
Proof. exact entry_between. Qed.
Print Assumptions C26_entry_between.

Theorem C26_market_adds : forall c e sd q uid e' f,
  valid_config c -> reachable c e -> step c e (OpMarket sd q uid) = Done (e', Ok (OutMarket f)) ->
  same_side sd (ex_pos e) = true -> ex_pos e <> Neutral ->
  position_entry_price (ex_pos e') =
  average (c_scale c) (position_entry_price (ex_pos e)) (Z.abs (position_quantity (ex_pos e))) (taker_price e sd) q.
Proof. exact market_adds. Qed.
Print Assumptions C26_market_adds.

Example C26_case : exists e outs, history (L true) added_ops e outs /\ same_side Buy (ex_pos e) = true /\
  exists e' f, step (L true) e (OpMarket Buy (d 2) 2) = Done (e', Ok (OutMarket f)) /\ position_entry_price (ex_pos e') = d 105.
Proof. exact added_case. Qed.

(** C26, refuted as stated: two fills at 0.5 give an entry price of 0.3. *)
Theorem C26_between_refuted : forall dbg, exists e outs,
  valid_config (T dbg) /\ history (T dbg) truncated_ops e outs /\
  map f_price (reported_fills (T dbg) truncated_ops outs) = [5; 5] /\ position_entry_price (ex_pos e) = 3 /\
  position_margin_of e = 2 /\ initial_margin (T dbg) (ex_pos e) = 1.
Proof. exact entry_below. Qed.
Print Assumptions C26_between_refuted.

(** C26 and C27, refuted for inverse contracts: fills worth 1 and 0.5 give a position of cost 1.3333. *)
Theorem C26_C27_inverse_refuted : forall dbg, exists e outs,
  valid_config (inverse dbg) /\ history (inverse dbg) mixed_ops e outs /\
  map (fun f => value Inverse S4 (f_qty f) (f_price f)) (reported_fills (inverse dbg) mixed_ops outs) = [d 1; 5000] /\
  position_entry_price (ex_pos e) = d 150 /\ position_total_cost (inverse dbg) (ex_pos e) = Done 13333 /\
  position_margin_of e = 15000 /\ initial_margin (inverse dbg) (ex_pos e) = 13333.
Proof. exact inverse_cost. Qed.
Print Assumptions C26_C27_inverse_refuted.

(** C27: the margin balance is the margin posted for the reported fills. *)
Theorem C27_margin_posted : forall c ops e outs,
  0 <= c_max c <= 10000 -> no_check ops -> history c ops e outs ->
  position_margin_of e = posted c (ledger_start (c_start c)) 0 (reported_fills c ops outs).
Proof. exact margin_posted. Qed.
Print Assumptions C27_margin_posted.

(** C27, linear contracts: quantity x entry price x initial margin rate, up to the rounding of each fill. *)
Theorem C27_margin_drift : forall c ops e outs,
  valid_config c -> c_kind c = Linear -> no_check ops -> history c ops e outs ->
  Z.abs (position_margin_of e * (c_scale c * c_scale c) -
         Z.abs (position_quantity (ex_pos e)) * position_entry_price (ex_pos e) * ct_imr (c_spec c))
  <= allowance c (ledger_start (c_start c)) (reported_fills c ops outs).
Proof. exact margin_drift. Qed.
Print Assumptions C27_margin_drift.

(** C27: exact when nothing was rounded; in particular zero when flat. *)
Theorem C27_margin_exact : forall c ops e outs,
  valid_config c -> c_kind c = Linear -> no_check ops -> history c ops e outs ->
  exact_fills c (ledger_start (c_start c)) (reported_fills c ops outs) ->
  position_margin_of e * (c_scale c * c_scale c) =
  Z.abs (position_quantity (ex_pos e)) * position_entry_price (ex_pos e) * ct_imr (c_spec c).
Proof. exact margin_exact. Qed.
Print Assumptions C27_margin_exact.

Example C27_case : exists e outs,
  valid_config (L true) /\ no_check falling_ops /\ history (L true) falling_ops e outs /\
  exact_fills (L true) (ledger_start (c_start (L true))) (reported_fills (L true) falling_ops outs) /\ position_margin_of e = d 909.
Proof. exact exact_case. Qed.

(** C27: zero when flat in debug builds, where closing with margin left panics. *)
Theorem C27_flat_debug : forall c e,
  valid_config c -> reachable c e -> c_dbg c = true -> ex_pos e = Neutral -> position_margin_of e = 0.
Proof. exact flat_debug. Qed.
Print Assumptions C27_flat_debug.

(** C27, refuted in release builds: no position, no orders, yet margin stays posted. *)
Theorem C27_flat_refuted : exists e outs,
  valid_config (T false) /\ history (T false) closed_ops e outs /\ ex_pos e = Neutral /\ ex_active e = [] /\ position_margin_of e = 1.
Proof. exact flat_margin. Qed.
Print Assumptions C27_flat_refuted.

(** C36: zero at the entry price, antisymmetric in direction and in the two prices, sign of the price move. *)
Theorem C36_pnl_laws : forall k s q entry exit, 0 < s -> 0 < entry -> 0 < exit -> pnl_law k s q entry exit.
Proof. exact pnl_laws. Qed.
Print Assumptions C36_pnl_laws.

Theorem C36_pnl_monotone : forall k s q entry a b ga gb,
  0 < s -> 0 < entry -> 0 < a -> a <= b -> pnl k s entry a q = Done ga -> pnl k s entry b q = Done gb ->
  (0 <= q -> ga <= gb) /\ (q <= 0 -> gb <= ga).
Proof. exact pnl_monotone. Qed.
Print Assumptions C36_pnl_monotone.

(** C36: longs are marked at the bid, shorts at the ask. *)
Theorem C36_marked : forall c e,
  c_kind c = Linear \/ (position_entry_price (ex_pos e) <> 0 /\ ms_bid (ex_ms e) <> 0 /\ ms_ask (ex_ms e) <> 0) ->
  position_unrealized_pnl c (ex_pos e) (ms_bid (ex_ms e)) (ms_ask (ex_ms e)) =
  Done (match ex_pos e with
        | Neutral => 0
        | Long i => gain (c_kind c) (c_scale c) (pi_qty i) (pi_entry i) (ms_bid (ex_ms e))
        | Short i => - gain (c_kind c) (c_scale c) (pi_qty i) (pi_entry i) (ms_ask (ex_ms e))
        end).
Proof. exact unrealised_at_quote. Qed.
Print Assumptions C36_marked.

Example C36_case : pnl Inverse S4 (d 100) (d 200) (d 1000) = Done (d 5) /\ pnl Linear S4 (d 100) (d 90) (- d 2) = Done (d 20).
Proof. split; reflexivity. Qed.

(** C44: two histories whose fills are mirror images of each other. *)
Theorem C44_mirror : forall c ops e outs ops' e' outs',
  0 <= c_max c <= 10000 -> no_check ops -> no_check ops' -> history c ops e outs -> history c ops' e' outs' ->
  reported_fills c ops' outs' = map mirror (reported_fills c ops outs) ->
  position_quantity (ex_pos e') = - position_quantity (ex_pos e) /\
  position_entry_price (ex_pos e') = position_entry_price (ex_pos e) /\
  position_outstanding_fees (ex_pos e') = position_outstanding_fees (ex_pos e) /\
  fees_paid e' = fees_paid e /\ position_margin_of e' = position_margin_of e /\
  wealth_of e' + fees_paid e' - c_start c = - (wealth_of e + fees_paid e - c_start c).
Proof. exact mirror_history. Qed.
Print Assumptions C44_mirror.

Example C44_case : exists e outs, history (L true) long_trip e outs /\
  exists e' outs', history (L true) short_trip e' outs' /\
  reported_fills (L true) short_trip outs' = map mirror (reported_fills (L true) long_trip outs) /\
  wealth_of e + fees_paid e - c_start (L true) = d 10 /\ wealth_of e' + fees_paid e' - c_start (L true) = - d 10.
Proof. exact mirror_case. Qed.
