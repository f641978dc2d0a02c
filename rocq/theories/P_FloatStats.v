(** Property C77. *)
From Coq Require Import QArith Qabs Qpower List Permutation.
From Verif Require Import Base Types Tracker Exchange Spec SpecBook SpecTrack SpecFate Scenario Float SpecDouble FloatStats SpecSample FloatStatsProof FloatStatsMean FloatStatsGrid FloatStatsRoot FloatStatsMirror FloatStatsCor.
Import ListNotations.
Open Scope Q_scope.

(** C77: the fill and cancellation ratio are undefined exactly before the first limit order, otherwise between zero and
    one, near the exact ratio, and zero exactly if nothing was filled or withdrawn. *)
Theorem C77_ratios : forall c ops e outs, (0 <= c_max c <= 10000)%Z -> no_check ops -> history c ops e outs ->
  let n := tally limit_submitted (calls ops outs) in
  (n < 2 ^ 64)%Z ->
  (n = 0%Z -> fill_ratio (ex_trk e) = NaN /\ cancellation_ratio (ex_trk e) = NaN) /\
  (n <> 0%Z -> exists r s, fill_ratio (ex_trk e) = Fin r /\ cancellation_ratio (ex_trk e) = Fin s /\
     0 <= r /\ r <= 1 /\ Qabs (r - inject_Z (Z.of_nat (length (completed ops outs))) / inject_Z n) <= 2 ^ (-22) /\ (r == 0 <-> completed ops outs = []) /\
     0 <= s /\ s <= 1 /\ Qabs (s - inject_Z (Z.of_nat (length (withdrawn ops outs))) / inject_Z n) <= 2 ^ (-22) /\ (s == 0 <-> withdrawn ops outs = [])).
Proof. exact ratios_range. Qed.
Print Assumptions C77_ratios.

(** C77: up to [2^24] limit orders they are the single precision numbers nearest to the exact ratios, and one exactly if
    all orders were filled or withdrawn. *)
Theorem C77_ratios_exact : forall c ops e outs, (0 <= c_max c <= 10000)%Z -> no_check ops -> history c ops e outs ->
  let n := tally limit_submitted (calls ops outs) in
  (0 < n <= 2 ^ 24)%Z ->
  fill_ratio (ex_trk e) = round_to b32 (inject_Z (Z.of_nat (length (completed ops outs))) / inject_Z n) /\
  cancellation_ratio (ex_trk e) = round_to b32 (inject_Z (Z.of_nat (length (withdrawn ops outs))) / inject_Z n) /\
  (forall r, fill_ratio (ex_trk e) = Fin r -> (r == 1 <-> Z.of_nat (length (completed ops outs)) = n)) /\
  (forall s, cancellation_ratio (ex_trk e) = Fin s -> (s == 1 <-> Z.of_nat (length (withdrawn ops outs)) = n)).
Proof. exact ratios_exact. Qed.
Print Assumptions C77_ratios_exact.

(** C77, refuted for more orders: a ratio of one does not mean that all orders were filled. *)
Theorem C77_ratio_one_refuted : ~ (forall t r, (0 <= tk_fully_filled t <= tk_sub_limit t)%Z -> (tk_sub_limit t < 2 ^ 64)%Z ->
  fill_ratio t = Fin r -> r == 1 -> tk_fully_filled t = tk_sub_limit t).
Proof. exact one_wrong. Qed.
Print Assumptions C77_ratio_one_refuted.

(** C77: the mean of a bounded sample is a number within the same bound, and near the exact mean. *)
Theorem C77_mean : forall m, (-1022 <= m <= 969)%Z -> forall l, (0 < Z.of_nat (length l) <= 2 ^ 53)%Z -> within (2 ^ m) l ->
  exists y, mean (map Fin l) = Fin y /\ Qabs y <= 2 ^ m /\
    Qabs (y - average l) <= (inject_Z (Z.of_nat (length l)) + 7) * 2 ^ (m - 54).
Proof. exact mean_bound. Qed.
Print Assumptions C77_mean.

(** C77: its variance is a number near the exact variance. *)
Theorem C77_variance : forall m l, (-500 <= m <= 480)%Z -> (0 < Z.of_nat (length l) <= 2 ^ 53)%Z -> within (2 ^ m) l ->
  exists v, variance (map Fin l) = Fin v /\ 0 <= v /\ v <= 2 ^ (2 * m + 2) /\
    Qabs (v - spread l) <= (inject_Z (Z.of_nat (length l)) + 16) * 2 ^ (2 * m - 51).
Proof. exact variance_bound. Qed.
Print Assumptions C77_variance.

(** C77: for any sample, infinities included, the variance is not negative. *)
Theorem C77_variance_sign : forall l, at_least 0 (variance l).
Proof. exact variance_sign. Qed.
Print Assumptions C77_variance_sign.

(** C77: the standard deviation is the number nearest to the root of the variance, undefined only with it and zero only
    with it. *)
Theorem C77_std_dev : forall l,
  match variance l with
  | NaN => std_dev l = NaN
  | Inf _ => std_dev l = Inf false
  | Fin v => exists y, std_dev l = Fin y /\ nearest_root b64 v y /\ (y == 0 <-> v == 0)
  end.
Proof. exact std_dev_spec. Qed.
Print Assumptions C77_std_dev.

(** C77: the divisor of the skew is the number nearest to the root of the cube of the variance, if the cube is in range, zero only for zero and undefined
    for negative numbers. *)
Theorem C77_power : forall a,
  match a with
  | NaN | Inf true => power15 b64 a = NaN
  | Inf false => power15 b64 a = Inf false
  | Fin x => (x < 0 -> power15 b64 a = NaN) /\ (x == 0 -> power15 b64 a = Fin 0) /\
      (2 ^ (-681) <= x -> x <= 2 ^ 680 -> exists y, power15 b64 a = Fin y /\ 0 < y /\ nearest_root b64 (x * x * x) y)
  end.
Proof. exact power15_spec. Qed.
Print Assumptions C77_power.

Example C77_power_case : same (power15 b64 (Fin 4)) (Fin 8) /\ same (power15 b64 (Fin 2)) (round64 (282842712474619009760 # 100000000000000000000)).
Proof. vm_compute. split; reflexivity. Qed.

(** C77: the excess kurtosis is at least -3. *)
Theorem C77_kurtosis_floor : forall l, at_least (- (3)) (excess_kurtosis l).
Proof. exact kurtosis_floor. Qed.
Print Assumptions C77_kurtosis_floor.

(** C77: if the sums are exact, the mean is the double nearest to the exact mean. *)
Theorem C77_grid_mean : forall q l, (-1074 <= q <= 900)%Z -> on_grid q l -> (0 < Z.of_nat (length l) <= 2 ^ 53)%Z ->
  mean (map Fin l) = round64 (average l).
Proof. exact mean_grid. Qed.
Print Assumptions C77_grid_mean.

(** C77: then a constant sample has no variance, and no skew or kurtosis. *)
Theorem C77_grid_constant : forall q l, (-1074 <= q <= 900)%Z -> on_grid q l -> (0 < Z.of_nat (length l) <= 2 ^ 53)%Z -> constant l ->
  variance (map Fin l) = Fin 0 /\ skew (map Fin l) = NaN /\ excess_kurtosis (map Fin l) = NaN.
Proof. exact grid_constant. Qed.
Print Assumptions C77_grid_constant.

(** C77: and any other sample has a positive variance. *)
Theorem C77_grid_spread : forall q l x x', (-480 <= q <= 400)%Z -> on_grid q l -> (Z.of_nat (length l) <= 2 ^ 53)%Z -> In x l -> In x' l -> ~ x == x' ->
  exists v, variance (map Fin l) = Fin v /\ 2 ^ (2 * q - 55) <= v.
Proof. exact grid_spread. Qed.
Print Assumptions C77_grid_spread.

(** C77: without variance, skew and kurtosis are undefined. *)
Theorem C77_no_spread : forall m l v, (-500 <= m <= 480)%Z -> (0 < Z.of_nat (length l) <= 2 ^ 53)%Z -> within (2 ^ m) l ->
  variance (map Fin l) = Fin v -> v == 0 -> skew (map Fin l) = NaN /\ excess_kurtosis (map Fin l) = NaN.
Proof. exact shape_none. Qed.
Print Assumptions C77_no_spread.

(** C77: the opposite sample has the opposite mean and skew and the same variance, standard deviation and kurtosis, to the
    last bit. *)
Theorem C77_mirror : forall l, mean (map fopp l) = fopp (mean l) /\ variance (map fopp l) = variance l /\ std_dev (map fopp l) = std_dev l /\
  skew (map fopp l) = fopp (skew l) /\ excess_kurtosis (map fopp l) = excess_kurtosis l.
Proof. exact mirror. Qed.
Print Assumptions C77_mirror.

(** C77: no moment of an empty sample, or of one with an undefined number, is defined. *)
Theorem C77_empty : mean [] = NaN /\ variance [] = NaN /\ std_dev [] = NaN /\ skew [] = NaN /\ excess_kurtosis [] = NaN.
Proof. exact empty. Qed.
Print Assumptions C77_empty.
Theorem C77_nan : forall l, In NaN l -> mean l = NaN /\ variance l = NaN /\ std_dev l = NaN /\ skew l = NaN /\ excess_kurtosis l = NaN.
Proof. exact spoiled. Qed.
Print Assumptions C77_nan.

(** C77, refuted: what C56 proves of exact moments fails for the computed ones.  The mean of a constant sample can be
    smaller than all its values, *)
Theorem C77_mean_refuted : ~ (forall l lo y, doubles l -> l <> [] -> (forall x, In x l -> lo <= x) -> mean (map Fin l) = Fin y -> lo <= y).
Proof. exact mean_outside. Qed.
Print Assumptions C77_mean_refuted.
(** it can have a variance, *)
Theorem C77_constant_refuted : ~ (forall l v, doubles l -> constant l -> variance (map Fin l) = Fin v -> v == 0).
Proof. exact spread_of_constant. Qed.
Print Assumptions C77_constant_refuted.
(** and a kurtosis, *)
Theorem C77_constant_kurtosis_refuted : ~ (forall l, doubles l -> constant l -> excess_kurtosis (map Fin l) = NaN).
Proof. exact kurtosis_of_constant. Qed.
Print Assumptions C77_constant_kurtosis_refuted.
(** the kurtosis can be less than -2, *)
Theorem C77_kurtosis_refuted : ~ (forall l, doubles l -> at_least (- (2)) (excess_kurtosis (map Fin l))).
Proof. exact kurtosis_below. Qed.
Print Assumptions C77_kurtosis_refuted.
(** it can be undefined for a sample with variance, *)
Theorem C77_undefined_refuted : ~ (forall l v, doubles l -> variance (map Fin l) = Fin v -> excess_kurtosis (map Fin l) = NaN -> v == 0).
Proof. exact undefined_shape. Qed.
Print Assumptions C77_undefined_refuted.
(** and the mean depends on the order of the sample. *)
Theorem C77_order_refuted : ~ (forall l l', doubles l -> Permutation l l' -> same (mean (map Fin l)) (mean (map Fin l'))).
Proof. exact order_matters. Qed.
Print Assumptions C77_order_refuted.

(** The skew and the kurtosis expected by the test in src/account_tracker/statistical_moments.rs:57-64, to the last bit. *)
Example C77_case :
  same (skew scipy) (round64 (2650554122698573 # 10000000000000000)) /\ same (excess_kurtosis scipy) (round64 (-16660010752838508 # 10000000000000000)) /\
  same (mean scipy) (Fin (33 # 8)) /\ same (std_dev [Fin 1; Fin 4; Fin 7]) (round64 (2449489742783178 # 1000000000000000)) /\
  same (excess_kurtosis (repeat (round64 (1 # 10)) 10)) (Fin (- (2))) /\ on_grid (-1) [1 * 2 ^ (-1); inject_Z (-3) * 2 ^ (-1)] /\
  within (2 ^ 1) [3 # 2; - (2)] /\ same (variance [Fin 3; Inf true]) NaN.
Proof.
  refine (conj _ (conj _ (conj _ (conj _ (conj _ (conj _ (conj _ _))))))).
  1-5: vm_compute; reflexivity.
  - exists [1; -3]%Z. split; [reflexivity | vm_compute; discriminate].
  - intros x [<- | [<- | []]]; vm_compute; discriminate.
  - vm_compute. exact I.
Qed.
(** One order of five filled and two withdrawn; none submitted. *)
Example C77_ratios_case :
  match play (demo_cfg Linear true) demo_ops, play (demo_cfg Linear true) [] with
  | Done (e, outs), Done (e0, _) =>
      tally limit_submitted (calls demo_ops outs) = 5%Z /\ completed demo_ops outs = [2%Z] /\ withdrawn demo_ops outs = [1; 4]%Z /\
      fill_ratio (ex_trk e) = round_to b32 (1 # 5) /\ cancellation_ratio (ex_trk e) = round_to b32 (2 # 5) /\ fill_ratio (ex_trk e0) = NaN
  | _, _ => False
  end.
Proof. vm_compute. refine (conj _ (conj _ (conj _ (conj _ (conj _ _))))); reflexivity. Qed.
