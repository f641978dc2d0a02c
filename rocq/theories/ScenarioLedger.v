(** Accountings of one's own. *)
From Verif Require Import Base Types Filters Accounting Tracker Exchange Ledger Scenario.

(** Always says that the wallet holds a million and never writes anything down. *)
Definition generous : accounting unit :=
  {| a_new := fun _ => Done tt;
     a_transfer := fun a _ => Done (a, Ok tt);
     a_balance := fun _ id => Done (Ok (match id with WALLET => d 1000000 | _ => 0 end));
     a_expect := fun _ => PLiquidateSubmit |}.
(** Balances as [generous], but transfers fail. *)
Definition closed : accounting unit :=
  {| a_new := fun _ => Done tt;
     a_transfer := fun a _ => Done (a, Err EUserOrderIdNotFound);
     a_balance := fun _ id => Done (Ok (match id with WALLET => d 1000000 | _ => 0 end));
     a_expect := fun _ => PLiquidateSubmit |}.
(** Nothing can be asked of it. *)
Definition mute : accounting unit :=
  {| a_new := fun _ => Done tt;
     a_transfer := fun a _ => Done (a, Ok tt);
     a_balance := fun _ _ => Done (Err EUserOrderIdNotFound);
     a_expect := fun _ => PLiquidateSubmit |}.
(** Counts in two columns; the balance is the difference. *)
Definition columns : accounting (list (account_id * Z * Z)) :=
  let col f l := fold_right Z.add 0 (map f l) in
  let sum (l : list (account_id * Z * Z)) id sel :=
    col (fun x => if account_id_eq_dec (fst (fst x)) id then sel x else 0) l in
  {| a_new := fun start => Done [(WALLET, start, 0); (TREASURY, 0, start)];
     a_transfer := fun l tx => Done ((tx_debit tx, tx_amount tx, 0) :: (tx_credit tx, 0, tx_amount tx) :: l, Ok tt);
     a_balance := fun l id => Done (Ok (sum l id (fun x => snd (fst x)) - sum l id snd));
     a_expect := fun _ => PLiquidateSubmit |}.

(** A rebate that pays for the margin. *)
Definition rebate : config := demo Linear true 1 2 (-10000) (d 1000) 10.
(** Quotes, a market order each way, and a candle without effect on the empty book. *)
Definition plain : list op := [quote 100 101 1; OpMarket Buy (d 1) 6; OpMarket Sell (d 1) 7; quote 99 100 2].
