(** Books in an array. *)
From Verif Require Import Base Types Accounting Ledger Numbered.

(** The array has an account for each number below 6. *)
Definition six (l : array) : Prop := length l = 6%nat.
Definition debits (l : array) (n : nat) : Z := match nth_error l n with Some t => ta_debits t | None => 0 end.
Definition credits (l : array) (n : nat) : Z := match nth_error l n with Some t => ta_credits t | None => 0 end.
(** The debits of all accounts are the credits of all accounts. *)
Definition even_books (l : array) : Prop :=
  debits l 0 + debits l 1 + debits l 2 + debits l 3 + debits l 4 + debits l 5
  = credits l 0 + credits l 1 + credits l 2 + credits l 3 + credits l 4 + credits l 5.
(** [l'] is [l] with [x] debited to account [d] and [y] credited to account [c]. *)
Definition booked_to (l : array) (d : nat) (x : Z) (c : nat) (y : Z) (l' : array) : Prop :=
  six l' /\ forall n, debits l' n = debits l n + (if Nat.eqb n d then x else 0) /\ credits l' n = credits l n + (if Nat.eqb n c then y else 0).

(** The transaction names two accounts that exist and differ. *)
Definition between (tx : numbered_tx) : bool :=
  (Nat.ltb (nt_debit tx) 6 && Nat.ltb (nt_credit tx) 6)%bool.
Definition distinct (tx : numbered_tx) : Prop := nt_debit tx <> nt_credit tx.
(** What transactions between existing accounts debit and credit to account [n]. *)
Fixpoint debited (txs : list numbered_tx) (n : nat) : Z :=
  match txs with [] => 0 | tx :: r => (if between tx && Nat.eqb n (nt_debit tx) then nt_amount tx else 0) + debited r n end.
Fixpoint credited (txs : list numbered_tx) (n : nat) : Z :=
  match txs with [] => 0 | tx :: r => (if between tx && Nat.eqb n (nt_credit tx) then nt_amount tx else 0) + credited r n end.
