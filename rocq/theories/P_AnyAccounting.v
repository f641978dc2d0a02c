(** Property C74: accountings of a user's own type. *)
From Verif Require Import Base Types Filters Accounting Currency Position OrderBook OrderMargin MarketUpdate Tracker Exchange
  Spec SpecConfig SpecMarket SpecMargin Scenario Ledger SpecLedger ScenarioLedger AnyLedgerProof RefuseProof AnyLedgerCor.

(** An accounting that keeps balances can take the place of the one in memory: the same results, the same state, the same balances, and
    the same panic if there is one.  All that is asked of it is [lawful]: it answers, opens with the money in the wallet, and books
    positive transfers between the seven pairs of accounts the exchange uses. *)
Theorem C74_lawful_same : forall A (L : accounting A) ok c ops, lawful L (c_start c) ok ->
  match play c ops with
  | Panic p => a_play L c ops = Panic p
  | Done (e', outs) => exists a e, a_play L c ops = Done (a, (e, outs)) /\ same_rest e e' /\ same_balances L a (ex_acc e') /\ ok a
  end.
Proof. exact (fun A => @play_same A). Qed.
Print Assumptions C74_lawful_same.

(** The exchange then reports the fees and the balances that the one in memory has. *)
Theorem C74_getters : forall A (L : accounting A) ok c ops e outs, lawful L (c_start c) ok -> play c ops = Done (e, outs) ->
  exists a e', a_play L c ops = Done (a, (e', outs)) /\ a_fees_paid L a = Done (a, margin_balance_of (ex_acc e) FEE) /\
    a_balances L a = Done (a, {| ub_wallet := wallet_of e; ub_pm := position_margin_of e; ub_om := order_margin_of e |}).
Proof. exact (fun A => @getters_same A). Qed.
Print Assumptions C74_getters.

(** The accounting in memory is one of these, with and without its debug assertion. *)
Theorem C74_in_memory_lawful : forall dbg start, lawful (in_memory dbg) start (fun acc => debit_sum acc = credit_sum acc).
Proof. exact in_memory_lawful. Qed.
Print Assumptions C74_in_memory_lawful.

(** One that keeps a list of columns. *)
Example C74_case_columns :
  lawful columns (c_start (demo_cfg Linear true)) (fun _ => True) /\
  match a_play columns (demo_cfg Linear true) demo_ops, play (demo_cfg Linear true) demo_ops with
  | Done (a, (e, outs)), Done (e', outs') =>
      outs = outs' /\ map (a_balance columns a) [WALLET; ORDER_MARGIN; POSITION_MARGIN; FEE; TREASURY] =
        map (fun v => Done (Ok v)) [7825222; 1040000; 0; 4778; -8870000] /\
      map (margin_balance_of (ex_acc e')) [WALLET; ORDER_MARGIN; POSITION_MARGIN; FEE; TREASURY] = [7825222; 1040000; 0; 4778; -8870000]
  | _, _ => False
  end.
Proof. split; [exact (columns_lawful _)|]. vm_compute. repeat split. Qed.

(** A lawful accounting that also writes down its transactions: every one of them moves a positive amount between accounts the exchange
    uses, and the balances are the opening balances and what was written down. *)
Theorem C74_recorded : forall A (L : accounting A) ok c ops e outs, lawful L (c_start c) ok -> play c ops = Done (e, outs) ->
  exists a log e', a_play (recording L) c ops = Done ((a, log), (e', outs)) /\ same_rest e' e /\ Forall regular log /\
    forall id, margin_balance_of (ex_acc e) id = opening (c_start c) id + booked log id.
Proof. exact (fun A => @recorded A). Qed.
Print Assumptions C74_recorded.
Example C74_case_recorded :
  match a_play (recording (in_memory true)) (demo_cfg Linear true) demo_ops with
  | Done ((a, log), (e, outs)) =>
      Z.of_nat (length log) = 18 /\
      firstn 3 log = [ {| tx_debit := POSITION_MARGIN; tx_credit := WALLET; tx_amount := 1010000 |};
                       {| tx_debit := ORDER_MARGIN; tx_credit := WALLET; tx_amount := 1980000 |};
                       {| tx_debit := POSITION_MARGIN; tx_credit := WALLET; tx_amount := 990000 |} ] /\
      opening (d 1000) WALLET + booked log WALLET = 7825222 /\ booked log FEE = 4778
  | Panic _ => False
  end.
Proof. vm_compute. repeat split. Qed.

(** Whatever the accounting does, a history that returns leaves the resting orders in order and the position sized. *)
Theorem C74_in_order : forall A (L : accounting A) c ops a e outs, 0 <= c_max c <= 10000 ->
  a_play L c ops = Done (a, (e, outs)) -> in_order c e.
Proof. exact (fun A => @any_accounting_in_order A). Qed.
Print Assumptions C74_in_order.

(** Whatever the accounting does, a market order that is executed moves the position by its quantity and touches no resting order. *)
Theorem C74_size : forall A (L : accounting A) c ops o a e outs b e' f, 0 <= c_max c <= 10000 ->
  a_play L c ops = Done (a, (e, outs)) -> a_step L c e o a = Done (b, (e', Ok (OutMarket f))) ->
  position_quantity (ex_pos e') = position_quantity (ex_pos e) + match fm_side f with Buy => fm_qty f | Sell => - fm_qty f end /\
  ex_active e' = ex_active e.
Proof. exact (fun A => @any_accounting_size A). Qed.
Print Assumptions C74_size.

(** An accounting only decides which calls go through.  Two exchanges with different accountings whose calls go through alike return the
    same results, errors aside, and end in the same state, but for the balances the tracker has sampled. *)
Theorem C74_only_decides : forall A B (L : accounting A) (M : accounting B) c ops a e outs b e' outs', 0 <= c_max c <= 10000 ->
  a_play L c ops = Done (a, (e, outs)) -> a_play M c ops = Done (b, (e', outs')) -> map okay outs = map okay outs' ->
  like e e' /\ Forall2 alike outs outs'.
Proof. exact (fun A B => @any_accounting_decides A B). Qed.
Print Assumptions C74_only_decides.
(** An accounting that is not lawful and one that is; the market orders go through with both. *)
Example C74_case_decides :
  match a_play generous (demo_cfg Linear true) plain, a_play (in_memory true) (demo_cfg Linear true) plain with
  | Done (_, (e, outs)), Done (_, (e', outs')) =>
      map okay outs = [true; true; true; true] /\ outs = outs' /\ e' = set_trk e (ex_trk e') /\ ex_next_id e = 2
  | _, _ => False
  end /\
  ~ lawful generous (c_start (demo_cfg Linear true)) (fun _ => True).
Proof.
  split; [vm_compute; repeat split|]. intros Law. destruct (law_new _ _ _ Law) as ([] & _ & _ & H). specialize (H WALLET). vm_compute in H. discriminate.
Qed.

(** An error of the accounting when a market order or a limit order asks for a balance is returned to the caller.  The order is counted
    and an order id is used up. *)
Theorem C74_market_error : forall A (L : accounting A) c e a sd q uid m err,
  market_new sd q uid = Ok m -> validate_order_quantity (ct_qf (c_spec c)) q = Done (Ok tt) ->
  a_balance L a POSITION_MARGIN = Done (Err err) \/
  (exists v, a_balance L a POSITION_MARGIN = Done (Ok v)) /\ a_balance L a WALLET = Done (Err err) ->
  a_step L c e (OpMarket sd q uid) a =
    Done (a, (set_next_id (set_trk e (log_market_order_submission (ex_trk e))) (ex_next_id e + 1), Err err)).
Proof. exact (fun A => @market_error A). Qed.
Print Assumptions C74_market_error.
Theorem C74_limit_error : forall A (L : accounting A) c e a sd p q uid o err,
  limit_new sd p q uid = Ok o -> validate_order_quantity (ct_qf (c_spec c)) q = Done (Ok tt) ->
  validate_limit_price (c_scale c) (ct_pf (c_spec c)) p (mid_price (ex_ms e)) = Done (Ok tt) ->
  a_balance L a WALLET = Done (Err err) ->
  a_step L c e (OpLimit sd p q uid) a =
    Done (a, (set_next_id (set_trk e (log_limit_order_submission (ex_trk e))) (ex_next_id e + 1), Err err)).
Proof. exact (fun A => @limit_error A). Qed.
Print Assumptions C74_limit_error.
(** A cancellation panics on it. *)
Theorem C74_cancel_error : forall A (L : accounting A) c e a by_ err,
  a_balance L a ORDER_MARGIN = Done (Err err) -> a_step L c e (OpCancel by_) a = Panic (a_expect L err).
Proof. exact (fun A => @cancel_error A). Qed.
Print Assumptions C74_cancel_error.
Example C74_case_errors :
  match a_play mute (demo_cfg Linear true) [OpMarket Buy (d 1) 6; OpLimit Buy (d 0) (d 1) 7; OpMarket Sell (d 1) 6] with
  | Done (_, (e, outs)) => outs = [Err EUserOrderIdNotFound; Err (EOrder LimitPriceLTEZero); Err EUserOrderIdNotFound] /\
      ex_next_id e = 2 /\ tk_sub_market (ex_trk e) = 2
  | Panic _ => False
  end /\
  a_play mute (demo_cfg Linear true) [OpCancel (ByOrderId 0)] = Panic PLiquidateSubmit.
Proof. vm_compute. repeat split. Qed.

(** If every transfer fails, nothing is ever traded: a history returns only as long as no order would be executed. *)
Theorem C74_refusing : forall A (L : accounting A) c, refusing L -> forall ops a e outs,
  a_play L c ops = Done (a, (e, outs)) -> ex_pos e = Neutral /\ Forall quiet outs.
Proof. exact (fun A => @refuse_idle A). Qed.
Print Assumptions C74_refusing.
Example C74_case_refusing :
  refusing closed /\
  match a_play closed (demo_cfg Linear true) [quote 100 101 1; OpMarket Buy (d 1) 6] with Panic p => p = PLiquidateSubmit | _ => False end /\
  match a_play closed (demo_cfg Linear true) [quote 100 101 1; OpCancel (ByOrderId 3); quote 101 102 2] with
  | Done (_, (e, outs)) => outs = [Ok (OutUpdates []); Err (EOrderIdNotFound 3); Ok (OutUpdates [])]
  | _ => False
  end.
Proof. split; [intros a tx a' r H; injection H as _ <-; reflexivity|]. vm_compute. repeat split. Qed.

(** The mock accounting knows no money.  If takers pay no rebate an exchange with it never trades, and the orders that rest need no margin. *)
Theorem C74_mock : forall c ops a e outs, valid_config c -> 0 <= ct_taker (c_spec c) -> a_play mock c ops = Done (a, (e, outs)) ->
  ex_pos e = Neutral /\ Forall quiet outs /\ forall o, In o (ex_active e) -> margin_at c (lo_rem o) (lo_price o) = 0.
Proof. exact mock_trades_nothing. Qed.
Print Assumptions C74_mock.
(** Orders are turned down; one worth nothing rests, and the exchange panics when it is filled; with a rebate a position is opened. *)
Example C74_case_mock :
  match a_play mock (demo_cfg Linear true) demo_mid with
  | Done (_, (e, outs)) => map okay outs = [true; false; false; false; false; true; false; false] /\ ex_next_id e = 4
  | Panic _ => False
  end /\
  match a_play mock (tiny Linear true) [raw_quote 4 5 1; OpLimit Buy 4 1 7; OpLimit Buy 4 3 8] with
  | Done (_, (e, outs)) => map okay outs = [true; true; false] /\ map lo_rem (ex_active e) = [1]
  | Panic _ => False
  end /\
  a_play mock (tiny Linear true)
    [raw_quote 4 5 1; OpLimit Buy 4 1 7; OpUpdate (RTrade {| tr_price := 3; tr_qty := 1; tr_side := Sell; tr_ts := 2 |})] = Panic PTxAmount /\
  match a_play mock rebate [quote 100 101 1; OpMarket Buy (d 1) 6] with
  | Done (_, (e, outs)) => position_quantity (ex_pos e) = d 1
  | Panic _ => False
  end.
Proof. vm_compute. repeat split. Qed.
