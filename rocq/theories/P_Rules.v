(** Properties C32, C33. *)
From Verif Require Import Base Types Filters MarketUpdate Exchange SpecRules Scenario FilterProof.

(** C32: the constructors accept exactly the documented inputs. *)
Theorem C32_leverage_exact : forall s v,
  (leverage_new s v = Ok (v * s) <-> 1 <= v) /\ (leverage_new s v = Err InvalidLeverage <-> v < 1).
Proof. exact leverage_exact. Qed.
Print Assumptions C32_leverage_exact.

Theorem C32_contract_exact : forall s v fraction pf qf maker taker,
  0 < s -> 1 <= v ->
  exists r, contract_new s (v * s) fraction pf qf maker taker = Done r /\
    (r = Err InvalidMaintenanceMarginFraction <-> fraction <= 0 \/ s < fraction) /\
    (r = Ok {| ct_imr := s / v; ct_mm := s / v * fraction / s; ct_pf := pf; ct_qf := qf;
               ct_maker := maker; ct_taker := taker |} <-> 0 < fraction <= s).
Proof. exact contract_exact. Qed.
Print Assumptions C32_contract_exact.

Theorem C32_config_exact : forall k s dbg start max ct sample,
  let r := config_new k s dbg start max ct sample in
  (r = Err InvalidMaxNumOpenOrders <-> max = 0) /\
  (r = Err InvalidStartingBalance <-> max <> 0 /\ start <= 0) /\
  (r = Ok {| c_kind := k; c_scale := s; c_dbg := dbg; c_start := start; c_max := max; c_spec := ct;
             c_sample_s := sample |} <-> max <> 0 /\ 0 < start).
Proof. exact config_exact. Qed.
Print Assumptions C32_config_exact.

(** C32: an accepted contract has maintenance margin in [0, initial margin] and initial margin in
    (0, 1], the lower bound provided the leverage is representable, i.e. not above the scale. *)
Theorem C32_margins_in_range : forall s v fraction pf qf maker taker ct,
  0 < s -> 1 <= v -> contract_new s (v * s) fraction pf qf maker taker = Done (Ok ct) ->
  0 <= ct_mm ct <= ct_imr ct /\ ct_imr ct <= s /\ (v <= s -> 0 < ct_imr ct).
Proof. exact margins_in_range. Qed.
Print Assumptions C32_margins_in_range.

Example C32_nonvacuous :
  leverage_new S4 5 = Ok (d 5) /\
  contract_new S4 (d 5) 5000 (price_filter_default S4) (quantity_filter_default S4) 2 6
  = Done (Ok {| ct_imr := 2000; ct_mm := 1000; ct_pf := price_filter_default S4;
                ct_qf := quantity_filter_default S4; ct_maker := 2; ct_taker := 6 |}) /\
  contract_new S4 (d 5) 0 (price_filter_default S4) (quantity_filter_default S4) 2 6
  = Done (Err InvalidMaintenanceMarginFraction).
Proof. vm_compute. repeat split. Qed.

(** With two decimals and leverage 200 the initial margin rate rounds to zero: the proviso is needed. *)
Theorem C32_zero_margin_rate_refuted : exists s v fraction ct,
  0 < s /\ 1 <= v <= 255 /\
  contract_new s (v * s) fraction (price_filter_default s) (quantity_filter_default s) 0 0 = Done (Ok ct) /\
  ct_imr ct = 0.
Proof. exists 100, 200, 50. eexists. vm_compute. repeat split; discriminate. Qed.
Print Assumptions C32_zero_margin_rate_refuted.

(** C33: order quantities. *)
Theorem C33_quantity_filter : forall f q,
  qf_tick f <> 0 ->
  exists v, validate_order_quantity f q = Done v /\
    (v = Ok tt <-> quantity_allowed f q) /\
    (v = Err QuantityTooHigh <-> q <> 0 /\ above (qf_max f) q) /\
    (v = Err QuantityTooLow <-> q = 0 \/ (~ above (qf_max f) q /\ below (qf_min f) q)) /\
    (v = Err InvalidQuantityStepSize <->
       q <> 0 /\ ~ above (qf_max f) q /\ ~ below (qf_min f) q /\ ~ (qf_tick f | q - origin (qf_min f))).
Proof. exact quantity_filter_exact. Qed.
Print Assumptions C33_quantity_filter.

(** C33: limit prices. *)
Theorem C33_price_filter : forall s f p mark,
  0 < s -> pf_tick f <> 0 -> 0 <= mark -> 0 <= pf_up f -> 0 <= pf_down f ->
  exists v, validate_limit_price s f p mark = Done v /\
    (v = Ok tt <-> price_allowed s f mark p) /\
    (v = Err LimitPriceAboveMax <-> 0 < p /\ above (pf_max f) p) /\
    (v = Err LimitPriceBelowMin <-> p <= 0 \/ (~ above (pf_max f) p /\ below (pf_min f) p)) /\
    (v = Err InvalidOrderPriceStepSize <->
       0 < p /\ ~ above (pf_max f) p /\ ~ below (pf_min f) p /\ ~ (pf_tick f | p - origin (pf_min f))) /\
    (v = Err LimitPriceAboveMultiple <-> price_static f p /\ above_band s f mark p) /\
    (v = Err LimitPriceBelowMultiple <->
       price_static f p /\ ~ above_band s f mark p /\ below_band s f mark p).
Proof. exact price_filter_exact. Qed.
Print Assumptions C33_price_filter.

(** C33: market data. *)
Theorem C33_market_data : forall f u,
  pf_tick f <> 0 ->
  (exists v, validate_market_update f u = Done v) /\
  (validate_market_update f u = Done (Ok tt) <-> data_ok f u).
Proof. exact (fun f u H => conj (data_total f u H) (data_exact f u H)). Qed.
Print Assumptions C33_market_data.

(** C33: the filter constructors, for a non-zero tick. *)
Theorem C33_quantity_filter_new : forall min max tick,
  tick <> 0 ->
  exists v, quantity_filter_new min max tick = Done v /\
    (v = Ok {| qf_min := min; qf_max := max; qf_tick := tick |} <-> (tick | origin min)) /\
    (v = Err InvalidMinQuantity <-> ~ (tick | origin min)).
Proof. exact quantity_new_rules. Qed.
Print Assumptions C33_quantity_filter_new.

Theorem C33_price_filter_new : forall s min max tick up down,
  tick <> 0 ->
  exists v, price_filter_new s min max tick up down = Done v /\
    (v = Ok {| pf_min := min; pf_max := max; pf_tick := tick; pf_up := up; pf_down := down |}
       <-> (tick | origin min) /\ s < up /\ down < s) /\
    (v = Err InvalidMinPrice <-> ~ (tick | origin min)) /\
    (v = Err InvalidUpMultiplier <-> (tick | origin min) /\ up <= s) /\
    (v = Err InvalidDownMultiplier <-> (tick | origin min) /\ s < up /\ s <= down).
Proof. exact price_new_rules. Qed.
Print Assumptions C33_price_filter_new.

(** C33: for a zero tick and no minimum the constructors report it ... *)
Theorem C33_zero_tick_reported : forall s max up down,
  quantity_filter_new None max 0 = Done (Err InvalidTickSize) /\
  price_filter_new s None max 0 up down = Done (Err InvalidTickSize).
Proof. exact (fun s max up down => conj eq_refl eq_refl). Qed.
Print Assumptions C33_zero_tick_reported.

(** ... but with any minimum they panic: the documented error is unreachable there. *)
Theorem C33_zero_tick_refuted : forall s m max up down,
  quantity_filter_new (Some m) max 0 = Panic PDivByZero /\
  price_filter_new s (Some m) max 0 up down = Panic PDivByZero.
Proof. exact (fun s m max up down => conj eq_refl eq_refl). Qed.
Print Assumptions C33_zero_tick_refuted.

Example C33_nonvacuous :
  let f := {| qf_min := Some (d 1); qf_max := Some (d 9); qf_tick := d 2 |} in
  validate_order_quantity f (d 3) = Done (Ok tt) /\
  validate_order_quantity f (d 4) = Done (Err InvalidQuantityStepSize) /\
  validate_order_quantity f (d 11) = Done (Err QuantityTooHigh) /\
  validate_limit_price S4 (price_filter_default S4) (d 150) (d 100) = Done (Ok tt) /\
  validate_limit_price S4 (price_filter_default S4) (d 201) (d 100) = Done (Err LimitPriceAboveMultiple) /\
  validate_market_update (price_filter_default S4) (UBba {| bb_bid := d 100; bb_ask := d 101; bb_ts := 1 |}) = Done (Ok tt).
Proof. vm_compute. repeat split. Qed.
