(** Vocabulary of the property about builds without overflow checks. *)
From Verif Require Import Base Types Accounting Exchange Width Release Spec.

(** Calls on a fresh exchange of such a build over [w] bit integers.  [Overflow] is the panic of a product, quotient or remainder. *)
Definition rb_play (w : Z) (c : config) (ops : list op) : checked (exchange * list (result error out)) :=
  e0 <~ rb_init w c ;; rb_run w c e0 ops.

(** The balance of an account as the build computes it is [debits - credits] up to a multiple of [2 ^ w]; this is the exact
    difference of the stored totals. *)
Definition stored_balance (e : exchange) (id : account_id) : Z :=
  ta_debits (get_account (ex_acc e) id) - ta_credits (get_account (ex_acc e) id).
