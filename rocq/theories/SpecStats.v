(** Independent definitions for the derived statistics of the account tracker. *)
From Verif Require Import Base Types MarketUpdate Tracker Exchange Spec SpecTrack.

(** Mid prices after each update, given the quote before. *)
Fixpoint marks_from (q : Z * Z) (ops : list op) : list Z :=
  match ops with
  | [] => []
  | OpUpdate ru :: r =>
      let q' := match quote_of ru with Some x => x | None => q end in Z.quot (fst q' + snd q') 2 :: marks_from q' r
  | _ :: r => marks_from q r
  end.
Definition marks (ops : list op) : list Z := marks_from (0, 0) ops.
(** The first number that is not zero; the tracker takes zero for "not set yet". *)
Definition first_set (l : list Z) : Z := match filter (fun x => negb (x =? 0)) l with x :: _ => x | [] => 0 end.
(** Times do not go back. *)
Fixpoint ordered (prev : Z) (times : list Z) : Prop :=
  match times with [] => True | t :: r => prev <= t /\ ordered t r end.
Definition day : Z := 86400000000000.
