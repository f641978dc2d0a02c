(** The accounting in memory with accounts numbered as in the code: the ids are machine words, the accounts are an array and looking
    one up can fail.  Accounting.v has an enumeration instead; C81 relates the two. *)
From Coq Require Import String.
From Verif Require Import Base Types Accounting Ledger.

(** src/accounting/in_memory_accounting.rs:14-25, the constants. *)
Definition number (id : account_id) : nat :=
  match id with WALLET => 0 | ORDER_MARGIN => 1 | POSITION_MARGIN => 2 | FEE => 3 | BROKER => 4 | TREASURY => 5 end%nat.
(** src/types/errors/main.rs:33 *)
Inductive lookup_error := AccountLookupFailure.

(** src/accounting/transaction.rs:41-51, [account_from_int]; [None] is its panic. *)
Definition account_from_int (n : nat) : option string :=
  match n with
  | 0 => Some "USER_WALLET_ACCOUNT"
  | 1 => Some "USER_ORDER_MARGIN_ACCOUNT"
  | 2 => Some "USER_POSITION_MARGIN_ACCOUNT"
  | 3 => Some "EXCHANGE_FEE_ACCOUNT"
  | 4 => Some "BROKER_MARGIN_ACCOUNT"
  | 5 => Some "TREASURY_ACCOUNT"
  | _ => None
  end%nat%string.

(** src/accounting/transaction.rs:10-21 *)
Record numbered_tx := { nt_debit : nat; nt_credit : nat; nt_amount : Z }.
(** src/accounting/transaction.rs:59-78, [Transaction::new]. *)
Definition numbered_tx_new (d c : nat) (amt : Z) : outcome numbered_tx :=
  _ <- assert (0 <? amt) PTxAmount ;;
  _ <- assert (negb (Nat.eqb d c)) PTxSameAccount ;;
  Done {| nt_debit := d; nt_credit := c; nt_amount := amt |}.
(** src/accounting/transaction.rs:24-38, the parts [Debug] prints; [None] is a panic. *)
Definition debug_tx (tx : numbered_tx) : option (string * string * Z) :=
  match account_from_int (nt_debit tx), account_from_int (nt_credit tx) with
  | Some d, Some c => Some (d, c, nt_amount tx)
  | _, _ => None
  end.

(** src/accounting/in_memory_accounting.rs:27-37; [margin_accounts[n] = t] of an index within the array. *)
Definition array := list taccount.
Fixpoint put (l : array) (n : nat) (t : taccount) : array :=
  match l, n with
  | [], _ => []
  | _ :: r, O => t :: r
  | x :: r, S n => x :: put r n t
  end.

(** src/accounting/utils.rs:8-26, [debug_assert_accounting_equation]. *)
Definition array_equation (dbg : bool) (l : array) : outcome unit :=
  debug_assert dbg (fold_left (fun s t => s + ta_debits t) l 0 =? fold_left (fun s t => s + ta_credits t) l 0) PAccountingEquation.

(** src/accounting/in_memory_accounting.rs:58-67, [new]. *)
Definition array_new (dbg : bool) (start : Z) : outcome array :=
  let z := {| ta_debits := 0; ta_credits := 0 |} in
  let l := repeat z 6 in
  let l := put l (number WALLET) (post_debit (nth (number WALLET) l z) start) in
  let l := put l (number TREASURY) (post_credit (nth (number TREASURY) l z) start) in
  _ <- array_equation dbg l ;;
  Done l.

(** src/accounting/in_memory_accounting.rs:73-92, [create_margin_transfer] after the line of the trace. *)
Definition array_post (dbg : bool) (l : array) (tx : numbered_tx) : outcome (array * result lookup_error unit) :=
  match nth_error l (nt_debit tx) with
  | None => Done (l, Err AccountLookupFailure)
  | Some da =>
      match nth_error l (nt_credit tx) with
      | None => Done (l, Err AccountLookupFailure)
      | Some ca =>
          let l1 := put l (nt_credit tx) (post_credit ca (nt_amount tx)) in
          let l2 := put l1 (nt_debit tx) (post_debit da (nt_amount tx)) in
          _ <- array_equation dbg l2 ;;
          Done (l2, Ok tt)
      end
  end.
(** src/accounting/in_memory_accounting.rs:69-93, [create_margin_transfer]; a trace, if it is switched on, prints the transaction
    first; [None] is the panic of that. *)
Definition array_transfer (traced dbg : bool) (l : array) (tx : numbered_tx) : option (outcome (array * result lookup_error unit)) :=
  if traced then match debug_tx tx with None => None | Some _ => Some (array_post dbg l tx) end
  else Some (array_post dbg l tx).

(** src/accounting/in_memory_accounting.rs:95-101, [margin_balance_of]. *)
Definition array_balance (l : array) (n : nat) : result lookup_error Z :=
  match nth_error l n with None => Err AccountLookupFailure | Some t => Ok (net_balance t) end.

(** The array as the accounting of the exchange, which passes the constants only.  The errors and the panic of the trace, which
    C81 shows do not occur, are mapped to some error and some panic. *)
Definition failure {A} (r : result lookup_error A) : result error A :=
  match r with Ok x => Ok x | Err AccountLookupFailure => Err EUserOrderIdNotFound end.
Definition in_array (traced dbg : bool) : accounting array :=
  {| a_new := array_new dbg;
     a_transfer := fun l tx =>
       match array_transfer traced dbg l {| nt_debit := number (tx_debit tx); nt_credit := number (tx_credit tx); nt_amount := tx_amount tx |} with
       | None => Panic PLiquidateSubmit
       | Some m => '(l', r) <- m ;; Done (l', failure r)
       end;
     a_balance := fun l id => Done (failure (array_balance l (number id)));
     a_expect := fun _ => PLiquidateSubmit |}.

(** Transactions one after the other, errors dropped. *)
Fixpoint array_post_all (dbg : bool) (l : array) (txs : list numbered_tx) : outcome array :=
  match txs with
  | [] => Done l
  | tx :: r => '(l', _) <- array_post dbg l tx ;; array_post_all dbg l' r
  end.
