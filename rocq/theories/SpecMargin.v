(** Independent statement of the margin requirement of resting orders. *)
From Coq Require Import Permutation Sorted.
From Verif Require Import Base Types Position Spec.

(** Price and remaining quantity of the orders of one side. *)
Definition pairs (sd : side) (book : list limit_order) : list (Z * Z) :=
  flat_map (fun o => if side_eq_dec (lo_side o) sd then [(lo_price o, lo_rem o)] else []) book.

(** Best price first: the highest buy, the lowest sell. *)
Definition better_eq (sd : side) (a b : Z * Z) : Prop :=
  match sd with Buy => fst b <= fst a | Sell => fst a <= fst b end.
Definition arranged (sd : side) (book : list limit_order) (l : list (Z * Z)) : Prop :=
  Permutation l (pairs sd book) /\ StronglySorted (better_eq sd) l.

(** Take [h] contracts off the front of the list. *)
Fixpoint hedge (h : Z) (l : list (Z * Z)) : list (Z * Z) :=
  match l with
  | [] => []
  | (p, q) :: rest => (p, q - Z.min q h) :: hedge (h - Z.min q h) rest
  end.

Definition cost (k : kind) (s : Z) (l : list (Z * Z)) : Z :=
  sumZ (map (fun x => value k s (snd x) (fst x)) l).

(** Requirement for a net position [n]: a short hedges buys, a long hedges sells. *)
Definition requirement (k : kind) (s imr n : Z) (buys sells : list (Z * Z)) : Z :=
  Z.quot (Z.max (cost k s (hedge (Z.max 0 (- n)) buys)) (cost k s (hedge (Z.max 0 n) sells)) * imr) s.

(** Multiples of [g] at price [p] have an exact value. *)
Definition exact_at (k : kind) (s g p : Z) : Prop :=
  match k with Linear => (s | g * p) | Inverse => (p | g * s) end.
Definition exact_book (k : kind) (s g n : Z) (book : list limit_order) : Prop :=
  (g | n) /\ forall o, In o book -> (g | lo_rem o) /\ exact_at k s g (lo_price o).

Definition good_book (book : list limit_order) : Prop :=
  forall o, In o book -> 0 < lo_rem o /\ 0 < lo_price o.

(** No two orders of one side have the same price. *)
Definition no_ties (b : list limit_order) : Prop := forall sd, NoDup (map fst (pairs sd b)).

(** Open positions have a size. *)
Definition sized (pos : position) : Prop :=
  match pos with Neutral => True | Long i => 0 < pi_qty i | Short i => 0 < pi_qty i end.
