(** Independent notions for statistical moments. *)
From Coq Require Import QArith List.
From Verif Require Import Moments.
Open Scope Q_scope.

Definition same_skew (a b : option (Q * Q)) : Prop :=
  match a, b with
  | None, None => True
  | Some (x, v), Some (y, w) => x == y /\ v == w
  | _, _ => False
  end.
Definition same_opt (a b : option Q) : Prop :=
  match a, b with None, None => True | Some x, Some y => x == y | _, _ => False end.
(** Equal numbers; rationals are compared with [==]. *)
Definition same_moments (a b : moments) : Prop :=
  mo_mean a == mo_mean b /\ mo_variance a == mo_variance b /\ same_skew (mo_skew a) (mo_skew b) /\
  same_opt (mo_excess_kurtosis a) (mo_excess_kurtosis b).
(** The moments of [x -> k * x + d] applied to the sample. *)
Definition scaled_by (k d : Q) (m : moments) : moments :=
  {| mo_mean := k * mo_mean m + d;
     mo_variance := k * k * mo_variance m;
     mo_skew := match mo_skew m with Some (a, v) => Some (k * k * k * a, k * k * v) | None => None end;
     mo_excess_kurtosis := mo_excess_kurtosis m |}.
