(** A book with orders that share identifiers, and accounts. *)
From Verif Require Import Base Types Accounting.
Definition resting (i u q : Z) : limit_order :=
  {| lo_uid := u; lo_side := Buy; lo_price := 100; lo_rem := q; lo_id := i; lo_ts := 0; lo_filled := Unfilled |}.
Definition crowded : list limit_order := [resting 1 7 5; resting 2 7 6; resting 1 8 7; resting 3 9 8].
Definition some_accounts (w t : Z) : accounts :=
  let z := {| ta_debits := 0; ta_credits := 0 |} in
  {| ac_wallet := {| ta_debits := w; ta_credits := 0 |}; ac_om := z; ac_pm := z; ac_fee := z; ac_broker := z; ac_treasury := {| ta_debits := 0; ta_credits := t |} |}.
