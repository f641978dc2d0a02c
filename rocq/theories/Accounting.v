(** Double entry accounting. *)
From Verif Require Import Base.

(** src/accounting/account.rs:8-22 *)
Record taccount := { ta_debits : Z; ta_credits : Z }.

(** src/accounting/account.rs:46-49, [net_balance]. *)
Definition net_balance (a : taccount) : Z := ta_debits a - ta_credits a.

(** src/accounting/account.rs:36-39 and 41-44 *)
Definition post_debit (a : taccount) (amt : Z) : taccount :=
  {| ta_debits := ta_debits a + amt; ta_credits := ta_credits a |}.
Definition post_credit (a : taccount) (amt : Z) : taccount :=
  {| ta_debits := ta_debits a; ta_credits := ta_credits a + amt |}.

(** src/accounting/in_memory_accounting.rs:12-25: the account ids 0..5 become an enumeration,
    so the [AccountLookupFailure] paths, unreachable with the constants, disappear. *)
Inductive account_id := WALLET | ORDER_MARGIN | POSITION_MARGIN | FEE | BROKER | TREASURY.

Definition account_id_eq_dec (a b : account_id) : {a = b} + {a <> b}.
Proof. decide equality. Defined.

(** src/accounting/in_memory_accounting.rs:29-37: the array of six accounts as a record. *)
Record accounts := {
  ac_wallet : taccount;
  ac_om : taccount;
  ac_pm : taccount;
  ac_fee : taccount;
  ac_broker : taccount;
  ac_treasury : taccount
}.

(** Array indexing [margin_accounts[id]] (read and write). *)
Definition get_account (acc : accounts) (id : account_id) : taccount :=
  match id with
  | WALLET => ac_wallet acc
  | ORDER_MARGIN => ac_om acc
  | POSITION_MARGIN => ac_pm acc
  | FEE => ac_fee acc
  | BROKER => ac_broker acc
  | TREASURY => ac_treasury acc
  end.

Definition set_account (acc : accounts) (id : account_id) (t : taccount) : accounts :=
  let (w, o, p, f, b, tr) := acc in
  match id with
  | WALLET => Build_accounts t o p f b tr
  | ORDER_MARGIN => Build_accounts w t p f b tr
  | POSITION_MARGIN => Build_accounts w o t f b tr
  | FEE => Build_accounts w o p t b tr
  | BROKER => Build_accounts w o p f t tr
  | TREASURY => Build_accounts w o p f b t
  end.

(** src/accounting/utils.rs:16-22 *)
Definition debit_sum (a : accounts) : Z :=
  ta_debits (ac_wallet a) + ta_debits (ac_om a) + ta_debits (ac_pm a)
  + ta_debits (ac_fee a) + ta_debits (ac_broker a) + ta_debits (ac_treasury a).
Definition credit_sum (a : accounts) : Z :=
  ta_credits (ac_wallet a) + ta_credits (ac_om a) + ta_credits (ac_pm a)
  + ta_credits (ac_fee a) + ta_credits (ac_broker a) + ta_credits (ac_treasury a).

(** src/accounting/utils.rs:8-26, [debug_assert_accounting_equation]. *)
Definition debug_assert_accounting_equation (dbg : bool) (a : accounts) : outcome unit :=
  debug_assert dbg (debit_sum a =? credit_sum a) PAccountingEquation.

(** src/accounting/in_memory_accounting.rs:58-67, [new]. *)
Definition accounting_new (dbg : bool) (start : Z) : outcome accounts :=
  let z := {| ta_debits := 0; ta_credits := 0 |} in
  let a := {| ac_wallet := post_debit z start; ac_om := z; ac_pm := z; ac_fee := z;
              ac_broker := z; ac_treasury := post_credit z start |} in
  _ <- debug_assert_accounting_equation dbg a ;;
  Done a.

(** src/accounting/transaction.rs:10-27 *)
Record transaction := { tx_debit : account_id; tx_credit : account_id; tx_amount : Z }.

(** src/accounting/transaction.rs:59-78, [Transaction::new]. *)
Definition transaction_new (d c : account_id) (amt : Z) : outcome transaction :=
  _ <- assert (0 <? amt) PTxAmount ;;
  _ <- assert (if account_id_eq_dec d c then false else true) PTxSameAccount ;;
  Done {| tx_debit := d; tx_credit := c; tx_amount := amt |}.

(** src/accounting/in_memory_accounting.rs:69-93, [create_margin_transfer]: the debit account is
    cloned first, the credit account is posted in place, then the debit clone is written back. *)
Definition create_margin_transfer (dbg : bool) (acc : accounts) (tx : transaction)
  : outcome accounts :=
  let debit_account := post_debit (get_account acc (tx_debit tx)) (tx_amount tx) in
  let acc1 := set_account acc (tx_credit tx)
                (post_credit (get_account acc (tx_credit tx)) (tx_amount tx)) in
  let acc2 := set_account acc1 (tx_debit tx) debit_account in
  _ <- debug_assert_accounting_equation dbg acc2 ;;
  Done acc2.

(** The pattern [let t = Transaction::new(d, c, amt); accounting.create_margin_transfer(t).expect(..)]
    used at every call site. *)
Definition transfer (dbg : bool) (acc : accounts) (d c : account_id) (amt : Z) : outcome accounts :=
  tx <- transaction_new d c amt ;;
  create_margin_transfer dbg acc tx.

(** src/accounting/in_memory_accounting.rs:96-101, [margin_balance_of]. *)
Definition margin_balance_of (acc : accounts) (id : account_id) : Z :=
  net_balance (get_account acc id).
