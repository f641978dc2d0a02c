(** Vocabulary of the property about release builds. *)
From Verif Require Import Base Types Accounting Exchange Width Fixed Wrapped Spec.

(** Calls on a fresh exchange of a release build over [w] bit integers. *)
Definition v_play (w : Z) (c : config) (ops : list op) : checked (exchange * list (result error out)) :=
  e0 <~ v_init w c ;; v_run w c e0 ops.

(** The nearest machine integer: [z] up to a multiple of [2 ^ w], in the range of the type. *)
Definition is_wrapped (w z z' : Z) : Prop := (exists k, z' = z + k * 2 ^ w) /\ - 2 ^ (w - 1) <= z' <= 2 ^ (w - 1) - 1.

(** [e] is the exchange [e'] with all twelve ledger totals wrapped around; everything else is the same. *)
Definition same_but_wrapped (w : Z) (e e' : exchange) : Prop :=
  e = set_acc e' (ex_acc e) /\
  forall id, is_wrapped w (ta_debits (get_account (ex_acc e') id)) (ta_debits (get_account (ex_acc e) id)) /\
             is_wrapped w (ta_credits (get_account (ex_acc e') id)) (ta_credits (get_account (ex_acc e) id)).

(** Same panic, or both return and the results are related. *)
Definition alike {A B} (S : A -> B -> Prop) (m : outcome A) (n : outcome B) : Prop :=
  match m, n with
  | Done a, Done b => S a b
  | Panic p, Panic q => p = q
  | _, _ => False
  end.
