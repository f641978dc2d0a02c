(** Property C81: the accounts by number. *)
From Coq Require Import Permutation String.
From Verif Require Import Base Types Accounting Exchange Scenario Ledger SpecLedger Numbered SpecNumbered NumberedProof.

(** The exchange with the accounts in an array and looked up by number trades as the one with a record: no lookup ever fails, with or
    without a trace, and the balances are the same. *)
Theorem C81_same : forall traced dbg c ops,
  match play c ops with
  | Panic p => a_play (in_array traced dbg) c ops = Panic p
  | Done (e', outs) => exists l e, a_play (in_array traced dbg) c ops = Done (l, (e, outs)) /\ same_rest e e' /\ six l /\ even_books l /\
      forall id, array_balance l (number id) = Ok (margin_balance_of (ex_acc e') id)
  end.
Proof. exact array_same. Qed.
Print Assumptions C81_same.

(** There are six numbers; each has a name of its own. *)
Theorem C81_names : forall n, ((6 <= n)%nat <-> account_from_int n = None) /\
  forall m s, account_from_int n = Some s -> account_from_int m = Some s -> n = m.
Proof. exact names. Qed.
Print Assumptions C81_names.

(** A balance is what was debited less what was credited; other numbers are an error. *)
Theorem C81_balance : forall l n, six l ->
  ((n < 6)%nat -> array_balance l n = Ok (debits l n - credits l n)) /\ ((6 <= n)%nat -> array_balance l n = Err AccountLookupFailure).
Proof. exact balance_exact. Qed.
Print Assumptions C81_balance.

(** Transactions are positive and between two numbers. *)
Theorem C81_transaction : forall d c x,
  (x <= 0 -> numbered_tx_new d c x = Panic PTxAmount) /\
  (0 < x -> d = c -> numbered_tx_new d c x = Panic PTxSameAccount) /\
  (0 < x -> d <> c -> numbered_tx_new d c x = Done {| nt_debit := d; nt_credit := c; nt_amount := x |}).
Proof. exact tx_exact. Qed.
Print Assumptions C81_transaction.

(** A transfer that names an unknown number changes nothing; between two accounts it books the amount to both.  Within one account
    the credit would be lost, which the checks of a debug build notice: this is what [Transaction::new] protects from. *)
Theorem C81_transfer : forall dbg l tx, six l ->
  (between tx = false -> array_post dbg l tx = Done (l, Err AccountLookupFailure)) /\
  (between tx = true -> distinct tx ->
     (dbg = true -> ~ even_books l -> array_post dbg l tx = Panic PAccountingEquation) /\
     (dbg = false \/ even_books l -> exists l', booked_to l (nt_debit tx) (nt_amount tx) (nt_credit tx) (nt_amount tx) l' /\
        array_post dbg l tx = Done (l', Ok tt))) /\
  (between tx = true -> ~ distinct tx ->
     (dbg = true -> even_books l -> nt_amount tx <> 0 -> array_post dbg l tx = Panic PAccountingEquation) /\
     (dbg = false -> exists l', booked_to l (nt_debit tx) (nt_amount tx) (nt_debit tx) 0 l' /\ array_post dbg l tx = Done (l', Ok tt))).
Proof. exact post_exact. Qed.
Print Assumptions C81_transfer.

(** A trace turns the error of an unknown number into a panic and changes nothing else. *)
Theorem C81_trace : forall dbg l tx, six l ->
  (between tx = false -> array_transfer true dbg l tx = None /\ array_transfer false dbg l tx = Some (Done (l, Err AccountLookupFailure))) /\
  (between tx = true -> array_transfer true dbg l tx = array_transfer false dbg l tx /\ array_transfer false dbg l tx = Some (array_post dbg l tx)).
Proof. exact trace_exact. Qed.
Print Assumptions C81_trace.

(** Any number of transfers add up, and their order does not matter; those with unknown numbers do not count. *)
Theorem C81_sum : forall dbg txs, (forall tx, In tx txs -> distinct tx) -> forall l, six l -> dbg = false \/ even_books l ->
  exists l', array_post_all dbg l txs = Done l' /\ six l' /\ (even_books l' <-> even_books l) /\
    forall n, debits l' n = debits l n + debited txs n /\ credits l' n = credits l n + credited txs n.
Proof. exact post_all_exact. Qed.
Print Assumptions C81_sum.
Theorem C81_order : forall dbg txs txs' l, (forall tx, In tx txs -> distinct tx) -> six l -> dbg = false \/ even_books l -> Permutation txs txs' ->
  array_post_all dbg l txs = array_post_all dbg l txs'.
Proof. exact post_all_order. Qed.
Print Assumptions C81_order.

(** The demo history with the array; a transfer to account 6; one within the wallet. *)
Example C81_case :
  match a_play (in_array true true) (demo_cfg Linear true) demo_ops with
  | Done (l, (e, outs)) => six l /\ map (array_balance l) [0; 1; 2; 3; 4; 5; 6]%nat =
        [Ok 7825222; Ok 1040000; Ok 0; Ok 4778; Ok 0; Ok (-8870000); Err AccountLookupFailure] /\
      array_post true l {| nt_debit := 0; nt_credit := 6; nt_amount := 5 |} = Done (l, Err AccountLookupFailure) /\
      array_transfer true true l {| nt_debit := 0; nt_credit := 6; nt_amount := 5 |} = None /\
      array_post true l {| nt_debit := 0; nt_credit := 0; nt_amount := 5 |} = Panic PAccountingEquation /\
      match array_post false l {| nt_debit := 0; nt_credit := 0; nt_amount := 5 |} with
      | Done (l', r) => r = Ok tt /\ array_balance l' 0 = Ok 7825227
      | Panic _ => False
      end
  | Panic _ => False
  end /\
  map account_from_int [0; 3; 6]%nat = [Some "USER_WALLET_ACCOUNT"%string; Some "EXCHANGE_FEE_ACCOUNT"%string; None].
Proof. vm_compute. repeat split. Qed.
