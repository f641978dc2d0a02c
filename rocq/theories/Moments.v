(** The statistical moments of a sample. *)
From Coq Require Import QArith List.
Import ListNotations.
Open Scope Q_scope.

(** src/account_tracker/statistical_moments.rs.  The code computes with [f64]; the model computes with exact rationals.
    A division by zero, [NaN] in the code, is [None]. *)

(** [iter().sum()] *)
Definition qsum (l : list Q) : Q := fold_right Qplus 0 l.
(** [vals.len() as f64] *)
Definition qlen (l : list Q) : Q := inject_Z (Z.of_nat (length l)).
(** [powi(k)] *)
Fixpoint powi (x : Q) (k : nat) : Q := match k with O => 1 | S k => x * powi x k end.
(** [vals.iter().map(|v| ( *v - mean).powi(k)).sum() / n] *)
Definition central (l : list Q) (m : Q) (k : nat) : Q := qsum (map (fun v => powi (v - m) k) l) / qlen l.

(** src/account_tracker/statistical_moments.rs:2-12.  The standard deviation is given by its square and the skew by its
    numerator [a] and the variance [v] for the value [a / v^(3/2)]. *)
Record moments := {
  mo_mean : Q;
  mo_variance : Q;
  mo_skew : option (Q * Q);
  mo_excess_kurtosis : option Q
}.

(** src/account_tracker/statistical_moments.rs:15-36, [statistical_moments]. *)
Definition statistical_moments (l : list Q) : option moments :=
  match l with
  | [] => None
  | _ =>
      let mean := qsum l / qlen l in
      let variance := central l mean 2 in
      Some {| mo_mean := mean;
              mo_variance := variance;
              mo_skew := if Qeq_bool variance 0 then None else Some (central l mean 3, variance);
              mo_excess_kurtosis := if Qeq_bool variance 0 then None
                                    else Some (central l mean 4 / powi variance 2 - 3) |}
  end.
