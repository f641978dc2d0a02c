(** Properties C02, C03, C24, C25. *)
From Verif Require Import Base Types Accounting Position OrderBook OrderMargin MarketUpdate Exchange Spec Scenario LedgerProof FeeProof LedgerCor.

(** C02: the reported position is the signed sum of all reported fills. *)
Theorem C02_position_is_sum_of_fills : forall c ops e outs,
  0 <= c_max c <= 10000 -> no_check ops -> history c ops e outs ->
  position_quantity (ex_pos e) = net (reported_fills c ops outs).
Proof. exact position_net. Qed.
Print Assumptions C02_position_is_sum_of_fills.

(** C03: position, entry price, fees due, the user's total balance and the fees paid are those of the
    trade ledger of the reported fills. *)
Theorem C03_wealth_follows_ledger : forall c ops e outs,
  0 <= c_max c <= 10000 -> no_check ops -> history c ops e outs ->
  let l := ledger_of c (reported_fills c ops outs) in
  position_quantity (ex_pos e) = l_qty l /\
  position_entry_price (ex_pos e) = l_entry l /\
  position_outstanding_fees (ex_pos e) = l_due l /\
  wealth_of e = l_cash l /\
  fees_paid e = l_paid l.
Proof. exact follows_ledger. Qed.
Print Assumptions C03_wealth_follows_ledger.

(** C24: with non-negative fee rates, fees paid plus fees due are exactly the fees of all fills. *)
Theorem C24_fees_accrue : forall c ops e outs,
  0 < c_scale c -> 0 <= ct_maker (c_spec c) -> 0 <= ct_taker (c_spec c) ->
  0 <= c_max c <= 10000 -> no_check ops -> history c ops e outs ->
  fees_paid e + position_outstanding_fees (ex_pos e)
    = all_fees (c_kind c) (c_scale c) (reported_fills c ops outs) /\
  0 <= position_outstanding_fees (ex_pos e) /\ 0 <= fees_paid e.
Proof. exact fees_accrue. Qed.
Print Assumptions C24_fees_accrue.

(** C24: no call ever lowers the fees paid, whatever the rates. *)
Theorem C24_fees_paid_never_decrease : forall c e o e' r,
  step c e o = Done (e', r) -> fees_paid e <= fees_paid e'.
Proof. exact step_fee. Qed.
Print Assumptions C24_fees_paid_never_decrease.

(** The hypotheses hold of a history with eight fills of all kinds, linear and inverse. *)
Example C02_C03_C24_nonvacuous : exists e outs,
  history (demo_cfg Linear true) demo_ops e outs /\ no_check demo_ops /\
  0 < c_scale (demo_cfg Linear true) /\ 0 <= c_max (demo_cfg Linear true) <= 10000 /\
  map f_side (reported_fills (demo_cfg Linear true) demo_ops outs) = [Buy; Buy; Sell; Sell; Buy] /\
  fees_paid e > 0 /\ wealth_of e < d 1000.
Proof.
  eexists _, _. split; [apply play_history; vm_compute; reflexivity|].
  split; [intros o H; repeat (destruct H as [<-|H]; [reflexivity|]); destruct H|].
  vm_compute. repeat split; discriminate.
Qed.

Example C03_nonvacuous_inverse : exists e outs,
  history (demo_cfg Inverse true) demo_inv e outs /\ no_check demo_inv /\
  map f_side (reported_fills (demo_cfg Inverse true) demo_inv outs) = [Buy; Sell; Sell; Buy] /\
  wealth_of e <> d 1000.
Proof.
  eexists _, _. split; [apply play_history; vm_compute; reflexivity|].
  split; [intros o H; repeat (destruct H as [<-|H]; [reflexivity|]); destruct H|].
  vm_compute. repeat split; discriminate.
Qed.

(** C25 is false: with a maker rebate of 0.02 % a position opened and closed at the same price by two
    limit orders leaves the user with exactly the starting balance; the rebate is lost. *)
Theorem C25_rebates_credited_refuted : exists c ops e outs,
  history c ops e outs /\ no_check ops /\ ct_maker (c_spec c) < 0 /\ 0 <= ct_taker (c_spec c) /\
  ex_pos e = Neutral /\ all_fees (c_kind c) (c_scale c) (reported_fills c ops outs) < 0 /\
  wealth_of e = c_start c /\ fees_paid e = 0 /\
  map (fun f => (f_side f, f_price f)) (reported_fills c ops outs) = [(Buy, d 99); (Sell, d 99)].
Proof. exact rebate_lost. Qed.
Print Assumptions C25_rebates_credited_refuted.
