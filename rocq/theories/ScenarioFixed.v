(** Histories for the overflow properties. *)
From Verif Require Import Base Types Accounting OrderMargin Exchange Scenario Width Fixed SpecFixed.

Definition overflows {A : Type} (m : checked A) : bool := match m with Overflow => true | Fine _ => false end.
Definition returns {A : Type} (m : checked A) : bool := match m with Fine (Done _) => true | _ => false end.

(** 1000.0000 units of money; [n] times an order worth 891.0000 is placed and cancelled. *)
Definition idle_ops (n : nat) : list op := quote 100 101 1 :: churn Buy (d 99) (d 9) 7 0 n.
