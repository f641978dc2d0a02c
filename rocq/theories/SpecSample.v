(** Independent notions for samples of numbers. *)
From Coq Require Import QArith Qabs Qpower List.
From Verif Require Import Float SpecDouble.
Open Scope Q_scope.

(** The exact mean. *)
Definition total (l : list Q) : Q := fold_right Qplus 0 l.
Definition average (l : list Q) : Q := total l / inject_Z (Z.of_nat (length l)).
Definition constant (l : list Q) : Prop := forall x y, In x l -> In y l -> x == y.
Definition within (b : Q) (l : list Q) : Prop := forall x, In x l -> Qabs x <= b.
(** All are double precision numbers. *)
Definition doubles (l : list Q) : Prop := forall x, In x l -> representable x.
(** Whole multiples of [2^q] whose absolute values add up to at most [2^53] of them. *)
Definition sizes (l : list Z) : Z := fold_right (fun k s => Z.abs k + s)%Z 0%Z l.
Definition on_grid (q : Z) (l : list Q) : Prop := exists ks, l = map (fun k => inject_Z k * 2 ^ q) ks /\ (sizes ks <= 2 ^ 53)%Z.
(** The same number. *)
Definition same (a b : float) : Prop :=
  match a, b with NaN, NaN => True | Inf s, Inf t => s = t | Fin x, Fin y => x == y | _, _ => False end.
(** Not below [b], if it is a number at all. *)
Definition at_least (b : Q) (a : float) : Prop := match a with NaN => True | Inf s => s = false | Fin x => b <= x end.
(** The exact variance. *)
Definition spread (l : list Q) : Q := average (map (fun x => (x - average l) * (x - average l)) l).
(** [y] is a number of the format nearest to the root of [x]: the root does not lie beyond the middle between [y] and any
    other number. *)
Definition nearest_root (f : format) (x y : Q) : Prop :=
  0 <= y /\ representable_in f y /\
  forall r, representable_in f r -> 0 <= r ->
    (y < r -> x <= ((y + r) / 2) * ((y + r) / 2)) /\ (r < y -> ((y + r) / 2) * ((y + r) / 2) <= x).
