(** Property C55. *)
From Verif Require Import Base Types Currency Filters Helpers HelpersProof.

(** C55: rounding to a quantum gives the multiple of the quantum next to the value, towards zero. *)
Theorem C55_quantize : forall v m, m <> 0 -> exists r, quantize_round_to_zero v m = Done r /\
  (m | r) /\ Z.abs r <= Z.abs v /\ 0 <= v * r /\ Z.abs (v - r) < Z.abs m.
Proof. exact quantize_exact. Qed.
Print Assumptions C55_quantize.
Theorem C55_quantize_fixed : forall v m, m <> 0 -> ((m | v) <-> quantize_round_to_zero v m = Done v).
Proof. exact quantize_fixed. Qed.
Print Assumptions C55_quantize_fixed.

(** C55: a quantity rounded to the tick size and within the limits is accepted by the quantity filter exactly when the
    filter's minimum is itself a multiple of the tick size. *)
Theorem C55_quantized_order : forall f q r, qf_tick f <> 0 -> quantize_round_to_zero q (qf_tick f) = Done r -> r <> 0 ->
  (forall m, qf_max f = Some m -> r <= m) -> (forall m, qf_min f = Some m -> m <= r) ->
  (validate_order_quantity f r = Done (Ok tt) <-> (forall m, qf_min f = Some m -> (qf_tick f | m))).
Proof. exact quantized_order. Qed.
Print Assumptions C55_quantized_order.

(** C55: converting a quantity and back at the same price never gains and loses less than one unit of each currency. *)
Theorem C55_convert_back : forall k s q p, 0 < s -> 0 < p -> 0 <= q ->
  exists v q', convert_from k s q p = Done v /\ convert_paired k s v p = Done q' /\ 0 <= q' <= q /\
    match k with Linear => p * (q - q') < s + p | Inverse => s * (q - q') < p + s end.
Proof. exact convert_back. Qed.
Print Assumptions C55_convert_back.
Theorem C55_convert_exact : forall k s q p v, 0 < s -> 0 < p -> 0 <= q -> convert_from k s q p = Done v ->
  match k with Linear => v * s = q * p | Inverse => v * p = q * s end -> convert_paired k s v p = Done q.
Proof. exact convert_exact. Qed.
Print Assumptions C55_convert_exact.

(** C55: the value of two quantities together is that of the parts, or one unit more. *)
Theorem C55_convert_add : forall k s a b p va vb vab, 0 < s -> 0 < p -> 0 <= a -> 0 <= b ->
  convert_from k s a p = Done va -> convert_from k s b p = Done vb -> convert_from k s (a + b) p = Done vab ->
  va + vb <= vab <= va + vb + 1.
Proof. exact convert_add. Qed.
Print Assumptions C55_convert_add.
Theorem C55_convert_odd : forall k s q p v, 0 < s -> 0 < p ->
  convert_from k s q p = Done v -> convert_from k s (- q) p = Done (- v).
Proof. exact convert_odd. Qed.
Print Assumptions C55_convert_odd.

(** C55: the price paid for any quantity at any cost; for nothing it is zero, and it never panics. *)
Theorem C55_price_paid : forall k s v q, price_paid_for_qty k s v q =
  Done (match k with
        | Linear => if q =? 0 then 0 else Z.quot (v * s) q
        | Inverse => if v =? 0 then 0 else Z.quot (q * s) v
        end).
Proof. exact price_paid. Qed.
Print Assumptions C55_price_paid.

(** C55: the price paid for a quantity is recovered from its cost up to rounding: not above the price for linear
    contracts, not below it for inverse ones, where a cost that truncates to zero gives the price zero. *)
Theorem C55_price_recovered : forall k s q p v, 0 < s -> 0 < p -> 0 < q -> convert_from k s q p = Done v ->
  exists p', price_paid_for_qty k s v q = Done p' /\
    match k with
    | Linear => p' <= p /\ q * (p - p') < s + q
    | Inverse => if v =? 0 then p' = 0 else p <= p' /\ v * (p' - p) < p
    end.
Proof. exact price_recovered. Qed.
Print Assumptions C55_price_recovered.

(** C55: a value is its sign times its magnitude; the sign is one, zero or minus one. *)
Theorem C55_signs : forall s v, 0 < s ->
  dmul s (currency_signum s v) (currency_abs v) = v /\ dmul s v (currency_signum s v) = currency_abs v /\
  (currency_signum s v = if v =? 0 then 0 else if 0 <? v then s else - s) /\
  (currency_is_positive v = true <-> 0 < v) /\ (currency_is_negative v = true <-> v < 0).
Proof. exact sign_law. Qed.
Print Assumptions C55_signs.

(** C55: constants with at most the configured number of decimals are exact; of others either the panic or the cut is all
    that can happen, whichever the decimal library does. *)
Theorem C55_new : forall m (D scale : nat) i, (scale <= D)%nat ->
  currency_new m (10 ^ Z.of_nat D) i scale = Done (i * 10 ^ Z.of_nat (D - scale)).
Proof. exact new_exact. Qed.
Print Assumptions C55_new.
Theorem C55_new_value : forall m (D scale : nat) i v, currency_new m (10 ^ Z.of_nat D) i scale = Done v ->
  match m with
  | Refuse => v * 10 ^ Z.of_nat scale = i * 10 ^ Z.of_nat D
  | CutOff => Z.abs (v * 10 ^ Z.of_nat scale) <= Z.abs (i * 10 ^ Z.of_nat D) < Z.abs (v * 10 ^ Z.of_nat scale) + 10 ^ Z.of_nat scale
  end.
Proof. exact new_decides. Qed.
Print Assumptions C55_new_value.
Theorem C55_new_panics : forall m (D scale : nat) i,
  currency_new m (10 ^ Z.of_nat D) i scale = Panic PNewScale <->
  m = Refuse /\ ~ (10 ^ Z.of_nat scale | i * 10 ^ Z.of_nat D).
Proof. exact new_panics. Qed.
Print Assumptions C55_new_panics.

(** Two decimals: 11.65 to steps of 0.5, 0.07 at 3 and back, 0.05 at 100 inverse, a cost that vanishes. *)
Example C55_case :
  quantize_round_to_zero 1165 50 = Done 1150 /\ quantize_round_to_zero (-1165) 50 = Done (-1150) /\
  convert_from Inverse 100 1000 300 = Done 333 /\ convert_paired Inverse 100 333 300 = Done 999 /\
  price_paid_for_qty Inverse 100 333 1000 = Done 300 /\ price_paid_for_qty Linear 100 10 33 = Done 30 /\
  convert_from Inverse 100 5 10000 = Done 0 /\ price_paid_for_qty Inverse 100 0 5 = Done 0 /\
  validate_order_quantity {| qf_min := Some 30; qf_max := None; qf_tick := 50 |} 1150 = Done (Err InvalidQuantityStepSize) /\
  currency_new CutOff 100 (-11659) 3 = Done (-1165) /\ currency_new Refuse 100 (-11659) 3 = Panic PNewScale /\
  currency_new Refuse 100 (-11650) 3 = Done (-1165).
Proof. vm_compute. repeat split. Qed.
