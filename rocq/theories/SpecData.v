(** Independent definitions for recorded trades. *)
From Coq Require Import String.
From Verif Require Import Base Types MarketUpdate Data Spec Scenario.

Definition good_header (head : list string) : Prop := exists rest, head = ("timestamp" :: "price" :: "size" :: rest)%string.
(** The trade a record stands for: the sign of the size tells the side, its magnitude the quantity. *)
Definition meant (r : csv_row) (t : trade) : Prop :=
  tr_price t = cr_price r /\ tr_ts t = 1000000 * cr_ms r /\ tr_qty t = Z.abs (cr_size r) /\
  (tr_side t = Buy <-> 0 < cr_size r).
(** Volume bought and sold by takers. *)
Definition volume (sd : side) (l : list trade) : Z :=
  sumZ (map tr_qty (filter (fun t => match tr_side t, sd with Buy, Buy => true | Sell, Sell => true | _, _ => false end) l)).
(** A purchase and a sale of 2 at 90. *)
Definition two_rows : list csv_row := [ {| cr_ms := 5; cr_price := d 90; cr_size := d 2 |}; {| cr_ms := 6; cr_price := d 90; cr_size := d (-2) |} ].
