(** Floating point numbers and the decimals near them. *)
From Coq Require Import QArith Qabs Qpower.
From Verif Require Import Base Width Helpers Float.
Open Scope Q_scope.

(** The finite numbers of a format: a mantissa and a binary exponent. *)
Definition representable_in (f : format) (x : Q) : Prop :=
  exists n e, (Z.abs n < 2 ^ f_prec f)%Z /\ (f_emin f <= e <= f_emax f - f_prec f)%Z /\ x == inject_Z n * 2 ^ e.
(** Half a unit in the last place: relative, and absolute next to zero. *)
Definition relative (f : format) : Q := 2 ^ (- f_prec f).
Definition absolute (f : format) : Q := 2 ^ (f_emin f - 1).
(** A format with at least two bits and numbers around one. *)
Definition sensible (f : format) : Prop := (2 <= f_prec f)%Z /\ (f_emin f <= 0)%Z /\ (f_prec f + 1 <= f_emax f)%Z /\ (f_emin f <= 1 - f_prec f)%Z.

(** Double precision. *)
Definition representable (x : Q) : Prop :=
  exists n e, (Z.abs n < 2 ^ 53)%Z /\ (-1074 <= e <= 971)%Z /\ x == inject_Z n * 2 ^ e.
Definition tiny : Q := 2 ^ (-1075).
(** The number in units of the last of [D] decimals. *)
Definition units (D : nat) (x : Q) : Q := x * inject_Z (10 ^ Z.of_nat D).
(** [z] units of the last of [D] decimals. *)
Definition decimal (D : nat) (z : Z) : Q := inject_Z z / inject_Z (10 ^ Z.of_nat D).
