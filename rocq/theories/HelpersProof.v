(** Proofs about the currency helpers. *)
From Verif Require Import Base Types Currency Filters Helpers ProofBase PnlCor.

(** ** Rounding to a quantum *)
Lemma quantize_exact v m : m <> 0 -> exists r, quantize_round_to_zero v m = Done r /\
  (m | r) /\ Z.abs r <= Z.abs v /\ 0 <= v * r /\ Z.abs (v - r) < Z.abs m.
Proof.
  intros Hm. unfold quantize_round_to_zero, drem. apply Z.eqb_neq in Hm as E. rewrite E. cbn [bind]. eexists. split; [reflexivity|].
  pose proof (Z.quot_rem' v m) as Q. pose proof (Z.rem_bound_abs v m Hm) as B. pose proof (Z.rem_sign_mul v m Hm) as S.
  assert (X : v - Z.rem v m = m * Z.quot v m) by lia. split; [exists (Z.quot v m); lia|].
  assert (R : Z.abs (Z.rem v m) <= Z.abs v) by (rewrite <- Z.rem_abs by exact Hm; apply Z.rem_le; lia).
  repeat split; nia.
Qed.
Lemma quantize_zero v : quantize_round_to_zero v 0 = Panic PDivByZero.
Proof. reflexivity. Qed.
Lemma rem_multiple r m : m <> 0 -> (m | r) -> Z.rem r m = 0.
Proof. intros Hm [k ->]. apply Z.rem_mul. exact Hm. Qed.
Lemma quantize_fixed v m : m <> 0 -> ((m | v) <-> quantize_round_to_zero v m = Done v).
Proof.
  intros Hm. unfold quantize_round_to_zero, drem. apply Z.eqb_neq in Hm as E. rewrite E. cbn [bind]. split.
  - intros D. rewrite (rem_multiple v m Hm D). f_equal. lia.
  - intros H. injection H as H. assert (R : Z.rem v m = 0) by lia. apply Z.rem_divide in R; assumption.
Qed.
Lemma quantized_order f q r : qf_tick f <> 0 -> quantize_round_to_zero q (qf_tick f) = Done r -> r <> 0 ->
  (forall m, qf_max f = Some m -> r <= m) -> (forall m, qf_min f = Some m -> m <= r) ->
  (validate_order_quantity f r = Done (Ok tt) <-> (forall m, qf_min f = Some m -> (qf_tick f | m))).
Proof.
  intros Ht Hq Hr Hmax Hmin. destruct (quantize_exact q (qf_tick f) Ht) as (r' & E & D & _). rewrite Hq in E. injection E as <-.
  unfold validate_order_quantity. apply Z.eqb_neq in Hr. rewrite Hr.
  replace (match qf_max f with Some m => m <? r | None => false end) with false
    by (destruct (qf_max f) as [m|]; [specialize (Hmax m eq_refl); symmetry; apply Z.ltb_ge; lia | reflexivity]).
  replace (match qf_min f with Some m => r <? m | None => false end) with false
    by (destruct (qf_min f) as [m|]; [specialize (Hmin m eq_refl); symmetry; apply Z.ltb_ge; lia | reflexivity]).
  unfold drem. apply Z.eqb_neq in Ht as Et. rewrite Et. cbv zeta. cbn [bind].
  destruct (qf_min f) as [m|].
  - destruct (Z.eqb_spec (Z.rem (r - m) (qf_tick f)) 0) as [R|R]; cbn [negb].
    + split; [|reflexivity]. intros _ m' X. injection X as <-. apply Z.rem_divide in R; [|exact Ht].
      replace m with (r - (r - m)) by lia. apply Z.divide_sub_r; assumption.
    + split; [discriminate|]. intros X. exfalso. apply R, rem_multiple; [exact Ht|]. apply Z.divide_sub_r; [exact D | apply X; reflexivity].
  - rewrite Z.sub_0_r, (rem_multiple _ _ Ht D). cbn. split; [discriminate | reflexivity].
Qed.

(** ** Conversions *)
Lemma convert_floor k s q p : 0 < s -> 0 < p -> 0 <= q ->
  exists v, convert_from k s q p = Done v /\ 0 <= v /\
    match k with Linear => v * s <= q * p < (v + 1) * s | Inverse => v * p <= q * s < (v + 1) * p end.
Proof.
  intros Hs Hp Hq. destruct k; cbn [convert_from].
  - unfold dmul. destruct (floor_at (q * p) s ltac:(nia) Hs) as (n0 & -> & H). exists n0. tauto.
  - unfold ddiv. destruct (Z.eqb_spec p 0); [lia|]. destruct (floor_at (q * s) p ltac:(nia) Hp) as (n0 & -> & H). exists n0. tauto.
Qed.
Lemma paired_floor k s v p : 0 < s -> 0 < p -> 0 <= v ->
  exists q, convert_paired k s v p = Done q /\ 0 <= q /\
    match k with Linear => q * p <= v * s < (q + 1) * p | Inverse => q * s <= v * p < (q + 1) * s end.
Proof.
  intros Hs Hp Hv. destruct k; cbn [convert_paired].
  - unfold ddiv. destruct (Z.eqb_spec p 0); [lia|]. destruct (floor_at (v * s) p ltac:(nia) Hp) as (n0 & -> & H). exists n0. tauto.
  - unfold dmul. destruct (floor_at (v * p) s ltac:(nia) Hs) as (n0 & -> & H). exists n0. tauto.
Qed.

Lemma convert_back k s q p : 0 < s -> 0 < p -> 0 <= q ->
  exists v q', convert_from k s q p = Done v /\ convert_paired k s v p = Done q' /\ 0 <= q' <= q /\
    match k with Linear => p * (q - q') < s + p | Inverse => s * (q - q') < p + s end.
Proof.
  intros Hs Hp Hq. destruct (convert_floor k s q p Hs Hp Hq) as (v & E & Hv & B).
  destruct (paired_floor k s v p Hs Hp Hv) as (q' & E' & Hq' & B'). exists v, q'. repeat (split; [assumption|]).
  destruct k; repeat split; nia.
Qed.

Lemma convert_exact k s q p v : 0 < s -> 0 < p -> 0 <= q -> convert_from k s q p = Done v ->
  match k with Linear => v * s = q * p | Inverse => v * p = q * s end -> convert_paired k s v p = Done q.
Proof.
  intros Hs Hp Hq E X. destruct (convert_floor k s q p Hs Hp Hq) as (v' & E' & Hv & _). rewrite E in E'. injection E' as <-.
  destruct k; cbn [convert_paired].
  - unfold ddiv. destruct (Z.eqb_spec p 0); [lia|]. rewrite X. rewrite Z.quot_mul by lia. reflexivity.
  - unfold dmul. rewrite X. rewrite Z.quot_mul by lia. reflexivity.
Qed.

Lemma convert_add k s a b p va vb vab : 0 < s -> 0 < p -> 0 <= a -> 0 <= b ->
  convert_from k s a p = Done va -> convert_from k s b p = Done vb -> convert_from k s (a + b) p = Done vab ->
  va + vb <= vab <= va + vb + 1.
Proof.
  intros Hs Hp Ha Hb Ea Eb Eab.
  destruct (convert_floor k s a p Hs Hp Ha) as (x & E & _ & B). rewrite Ea in E. injection E as <-.
  destruct (convert_floor k s b p Hs Hp Hb) as (x & E & _ & C). rewrite Eb in E. injection E as <-.
  destruct (convert_floor k s (a + b) p Hs Hp ltac:(lia)) as (x & E & _ & D). rewrite Eab in E. injection E as <-.
  destruct k; split; nia.
Qed.

Lemma convert_odd k s q p v : 0 < s -> 0 < p -> convert_from k s q p = Done v -> convert_from k s (- q) p = Done (- v).
Proof.
  intros Hs Hp. destruct k; cbn [convert_from]; unfold dmul, ddiv.
  - intros H. injection H as <-. rewrite Z.mul_opp_l, Z.quot_opp_l by lia. reflexivity.
  - destruct (Z.eqb_spec p 0); [lia|]. intros H. injection H as <-. rewrite Z.mul_opp_l, Z.quot_opp_l by lia. reflexivity.
Qed.

(** ** The price paid *)
Lemma price_recovered k s q p v : 0 < s -> 0 < p -> 0 < q -> convert_from k s q p = Done v ->
  exists p', price_paid_for_qty k s v q = Done p' /\
    match k with
    | Linear => p' <= p /\ q * (p - p') < s + q
    | Inverse => if v =? 0 then p' = 0 else p <= p' /\ v * (p' - p) < p
    end.
Proof.
  intros Hs Hp Hq E. destruct (convert_floor k s q p Hs Hp ltac:(lia)) as (x & E' & Hv & B). rewrite E in E'. injection E' as <-.
  destruct k; cbn [price_paid_for_qty].
  - destruct (Z.eqb_spec q 0); [lia|]. unfold ddiv. destruct (Z.eqb_spec q 0); [lia|].
    destruct (floor_at (v * s) q ltac:(nia) Hq) as (m0 & -> & Hn & Bn). exists m0. split; [reflexivity|]. nia.
  - destruct (Z.eqb_spec v 0) as [Z0|N0]; [eexists; split; reflexivity|].
    unfold ddiv. destruct (Z.eqb_spec v 0); [lia|].
    destruct (floor_at (q * s) v ltac:(nia) ltac:(lia)) as (m0 & -> & Hn & Bn). exists m0. split; [reflexivity|]. split; nia.
Qed.

(** ** Signs *)
Lemma sign_law s v : 0 < s ->
  dmul s (currency_signum s v) (currency_abs v) = v /\ dmul s v (currency_signum s v) = currency_abs v /\
  (currency_signum s v = if v =? 0 then 0 else if 0 <? v then s else - s) /\
  (currency_is_positive v = true <-> 0 < v) /\ (currency_is_negative v = true <-> v < 0).
Proof.
  intros Hs. unfold dmul, currency_signum, currency_abs, currency_is_positive, currency_is_negative.
  rewrite Z.ltb_lt, Z.ltb_lt. destruct (Z.compare_spec v 0) as [->|L|G].
  - repeat split; try tauto.
  - destruct (Z.eqb_spec v 0), (Z.ltb_spec 0 v); try lia. rewrite Z.abs_neq by lia. replace (- s * - v) with (v * s) by lia. replace (v * - s) with (- v * s) by lia.
    rewrite !Z.quot_mul by lia. tauto.
  - destruct (Z.eqb_spec v 0), (Z.ltb_spec 0 v); try lia. rewrite Z.abs_eq by lia. replace (s * v) with (v * s) by lia. rewrite !Z.quot_mul by lia. tauto.
Qed.

(** ** Constants *)
Lemma ten_pos n : 0 < 10 ^ Z.of_nat n. Proof. apply Z.pow_pos_nonneg; lia. Qed.
Lemma new_exact m (D scale : nat) i :
  (scale <= D)%nat -> currency_new m (10 ^ Z.of_nat D) i scale = Done (i * 10 ^ Z.of_nat (D - scale)).
Proof.
  intros H. unfold currency_new, try_from_scaled. cbv zeta.
  replace (Z.of_nat D) with (Z.of_nat (D - scale) + Z.of_nat scale) by lia.
  rewrite Z.pow_add_r by lia. rewrite Z.mul_assoc. rewrite Z.quot_mul by (pose proof (ten_pos scale); lia).
  rewrite Z.eqb_refl. reflexivity.
Qed.
Lemma new_decides m (D scale : nat) i v :
  currency_new m (10 ^ Z.of_nat D) i scale = Done v ->
  match m with
  | Refuse => v * 10 ^ Z.of_nat scale = i * 10 ^ Z.of_nat D
  | CutOff => Z.abs (v * 10 ^ Z.of_nat scale) <= Z.abs (i * 10 ^ Z.of_nat D) < Z.abs (v * 10 ^ Z.of_nat scale) + 10 ^ Z.of_nat scale
  end.
Proof.
  unfold currency_new, try_from_scaled. cbv zeta. pose proof (ten_pos D) as P. pose proof (ten_pos scale) as P'.
  set (a := i * 10 ^ Z.of_nat D). set (b := 10 ^ Z.of_nat scale) in *. 
  pose proof (Z.quot_rem' a b) as Q. pose proof (Z.rem_bound_abs a b ltac:(lia)) as B.
  destruct (Z.eqb_spec (Z.quot a b * b) a) as [E|E].
  - intros [= <-]. destruct m; [exact E|]. rewrite E. lia.
  - destruct m; [discriminate|]. intros [= <-].
    assert (S : 0 <= Z.rem a b * a) by (apply Z.rem_sign_mul; lia). rewrite (Z.abs_eq b) in B by lia.
    set (q := Z.quot a b) in *. set (r := Z.rem a b) in *. clearbody a b q r.
    destruct (Z.lt_trichotomy a 0) as [L|[L|L]].
    + assert (r <= 0) by nia. assert (q <= 0) by nia. assert (q * b <= 0) by nia. lia.
    + subst a. assert (q = 0) by nia. nia.
    + assert (0 <= r) by nia. assert (0 <= q) by nia. assert (0 <= q * b) by nia. lia.
Qed.
Lemma new_panics m (D scale : nat) i :
  currency_new m (10 ^ Z.of_nat D) i scale = Panic PNewScale <->
  m = Refuse /\ ~ (10 ^ Z.of_nat scale | i * 10 ^ Z.of_nat D).
Proof.
  unfold currency_new, try_from_scaled. cbv zeta. pose proof (ten_pos scale) as P'.
  set (a := i * 10 ^ Z.of_nat D). set (b := 10 ^ Z.of_nat scale) in *.
  destruct (Z.eqb_spec (Z.quot a b * b) a) as [E|E].
  - split; [discriminate|]. intros [_ N]. destruct N. exists (Z.quot a b). lia.
  - destruct m.
    + split; [|reflexivity]. intros _. split; [reflexivity|]. intros [q Hq]. apply E. rewrite Hq, Z.quot_mul by lia. reflexivity.
    + split; [discriminate|]. intros [? _]. discriminate.
Qed.
Lemma price_paid k s v q : price_paid_for_qty k s v q =
  Done (match k with
        | Linear => if q =? 0 then 0 else Z.quot (v * s) q
        | Inverse => if v =? 0 then 0 else Z.quot (q * s) v
        end).
Proof. destruct k; cbn [price_paid_for_qty]; unfold ddiv; [destruct (Z.eqb_spec q 0) | destruct (Z.eqb_spec v 0)]; reflexivity. Qed.
