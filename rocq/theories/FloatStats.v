(** Statistics in floating point numbers. *)
From Coq Require Import QArith Qround Qabs Qpower List.
From Verif Require Import Base Tracker Float.
Import ListNotations.
Open Scope Q_scope.

(** The operations of IEEE 754 on a format.  As in Float.v there is one zero, the positive one. *)
Definition fadd (f : format) (a b : float) : float :=
  match a, b with
  | NaN, _ | _, NaN => NaN
  | Inf s, Inf t => if eqb s t then Inf s else NaN
  | Inf s, Fin _ | Fin _, Inf s => Inf s
  | Fin x, Fin y => round_to f (x + y)
  end.
Definition fopp (a : float) : float := match a with NaN => NaN | Inf s => Inf (negb s) | Fin x => Fin (- x) end.
Definition fsub (f : format) (a b : float) : float := fadd f a (fopp b).
Definition fdiv (f : format) (a b : float) : float :=
  match a, b with
  | NaN, _ | _, NaN | Inf _, Inf _ => NaN
  | Inf s, Fin y => Inf (xorb s (negative y))
  | Fin _, Inf _ => Fin 0
  | Fin x, Fin y => if Qeq_bool y 0 then (if Qeq_bool x 0 then NaN else Inf (negative x)) else round_to f (x / y)
  end.
(** [as f32] and [as f64] of an integer. *)
Definition of_int (f : format) (n : Z) : float := round_to f (inject_Z n).

(** src/account_tracker/full_track.rs:167-169, [limit_order_fill_ratio]. *)
Definition fill_ratio (t : tracker) : float := fdiv b32 (of_int b32 (tk_fully_filled t)) (of_int b32 (tk_sub_limit t)).
(** src/account_tracker/full_track.rs:173-175, [limit_order_cancellation_ratio]. *)
Definition cancellation_ratio (t : tracker) : float := fdiv b32 (of_int b32 (tk_cancelled t)) (of_int b32 (tk_sub_limit t)).

(** The number nearest to the square root of [x > 0].  [s] is the root in halves of its last place, rounded down; a root
    in between is told apart from the tie by moving it to the middle. *)
Definition root (f : format) (x : Q) : float :=
  let e := (binade x / 2 - f_prec f)%Z in
  let q := x / 2 ^ (2 * e) in
  let s := Z.sqrt (Qfloor q) in
  round_to f ((if Qeq_bool (inject_Z (s * s)) q then inject_Z s else inject_Z s + (1 # 2)) * 2 ^ e).
(** [sqrt] *)
Definition fsqrt (f : format) (a : float) : float :=
  match a with
  | NaN | Inf true => NaN
  | Inf false => Inf false
  | Fin x => if Qeq_bool x 0 then Fin 0 else if negative x then NaN else root f x
  end.
(** [powf(1.5)], the root of the cube, taken to be correctly rounded. *)
Definition power15 (f : format) (a : float) : float :=
  match a with
  | NaN | Inf true => NaN
  | Inf false => Inf false
  | Fin x => if Qeq_bool x 0 then Fin 0 else if negative x then NaN else root f (x * x * x)
  end.

(** [iter().sum::<f64>()], from the left. *)
Definition fsum (l : list float) : float := fold_left (fadd b64) l (Fin 0).
(** [powi], by squaring. *)
Definition square (a : float) : float := fmul b64 a a.
Definition cube (a : float) : float := fmul b64 a (square a).
Definition fourth (a : float) : float := square (square a).

(** src/account_tracker/statistical_moments.rs:15-36, [statistical_moments]. *)
Definition length64 (l : list float) : float := of_int b64 (Z.of_nat (length l)).
Definition mean (l : list float) : float := fdiv b64 (fsum l) (length64 l).
Definition deviations (l : list float) : list float := map (fun v => fsub b64 v (mean l)) l.
Definition variance (l : list float) : float := fdiv b64 (fsum (map square (deviations l))) (length64 l).
Definition std_dev (l : list float) : float := fsqrt b64 (variance l).
Definition skew (l : list float) : float :=
  fdiv b64 (fmul b64 (fdiv b64 (Fin 1) (length64 l)) (fsum (map cube (deviations l)))) (power15 b64 (variance l)).
Definition excess_kurtosis (l : list float) : float :=
  fsub b64 (fdiv b64 (fmul b64 (fdiv b64 (Fin 1) (length64 l)) (fsum (map fourth (deviations l)))) (square (variance l))) (Fin 3).
