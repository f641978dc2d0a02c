(** Property C56. *)
From Coq Require Import QArith List Permutation.
From Verif Require Import Moments SpecMoments MomentsProof.
Import ListNotations.
Open Scope Q_scope.

(** C56: the moments are defined exactly for non-empty samples. *)
Theorem C56_defined : forall l, statistical_moments l = None <-> l = [].
Proof. exact defined. Qed.
Print Assumptions C56_defined.

(** C56: the mean lies between the bounds of the sample. *)
Theorem C56_mean : forall l m lo hi,
  statistical_moments l = Some m -> (forall x, In x l -> lo <= x <= hi) -> lo <= mo_mean m <= hi.
Proof. exact mean_between. Qed.
Print Assumptions C56_mean.

(** C56: the variance is not negative and is zero exactly for constant samples; skew and kurtosis are undefined exactly
    for those. *)
Theorem C56_spread : forall l m, statistical_moments l = Some m ->
  0 <= mo_variance m /\ (mo_variance m == 0 <-> forall x, In x l -> x == mo_mean m) /\
  (mo_skew m = None <-> mo_variance m == 0) /\ (mo_excess_kurtosis m = None <-> mo_variance m == 0).
Proof. exact spread. Qed.
Print Assumptions C56_spread.

(** C56: Pearson's inequality, skew^2 <= excess kurtosis + 2, in particular the excess kurtosis is at least -2. *)
Theorem C56_shape : forall l m a v k,
  statistical_moments l = Some m -> mo_skew m = Some (a, v) -> mo_excess_kurtosis m = Some k ->
  v == mo_variance m /\ 0 < v /\ a * a <= v * v * v * (k + 2) /\ - (2) <= k.
Proof. exact shape. Qed.
Print Assumptions C56_shape.

(** C56: the effect of changing unit and origin of the values; skew (up to sign) and kurtosis do not depend on them. *)
Theorem C56_affine : forall l k d m, ~ k == 0 -> statistical_moments l = Some m ->
  exists m', statistical_moments (map (fun x => k * x + d) l) = Some m' /\ same_moments m' (scaled_by k d m).
Proof. exact affine. Qed.
Print Assumptions C56_affine.

(** C56: the order of the sample does not matter. *)
Theorem C56_order : forall l l' m, Permutation l l' -> statistical_moments l = Some m ->
  exists m', statistical_moments l' = Some m' /\ same_moments m' m.
Proof. exact order_free. Qed.
Print Assumptions C56_order.

(** The example of the repository: skew 0.2650554122698573, excess kurtosis -1.6660010752838508. *)
Example C56_case :
  match statistical_moments [2; 8; 0; 4; 1; 9; 9; 0] with
  | Some {| mo_mean := m; mo_variance := v; mo_skew := Some (a, w); mo_excess_kurtosis := Some k |} =>
      m == 33 # 8 /\ 0 < a /\ (2650554122 # 10000000000) * (2650554122 # 10000000000) * (w * w * w) < a * a /\
      a * a < (2650554123 # 10000000000) * (2650554123 # 10000000000) * (w * w * w) /\
      - (16660010753 # 10000000000) < k /\ k < - (16660010752 # 10000000000)
  | _ => False
  end.
Proof. vm_compute. repeat split. Qed.
