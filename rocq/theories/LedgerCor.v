(** Corollaries of the ledger refinement and the rebate counterexample. *)
From Verif Require Import Base Types Accounting Position Exchange Spec Scenario Inv StepLemmas LedgerProof.

Lemma position_net c ops e outs :
  0 <= c_max c <= 10000 -> no_check ops -> history c ops e outs ->
  position_quantity (ex_pos e) = net (reported_fills c ops outs).
Proof. intros Hm Hc H. symmetry. apply (wi_net _ _ _ (history_winv _ _ _ _ Hm Hc H)). Qed.

Lemma follows_ledger c ops e outs :
  0 <= c_max c <= 10000 -> no_check ops -> history c ops e outs ->
  let l := ledger_of c (reported_fills c ops outs) in
  position_quantity (ex_pos e) = l_qty l /\
  position_entry_price (ex_pos e) = l_entry l /\
  position_outstanding_fees (ex_pos e) = l_due l /\
  wealth_of e = l_cash l /\
  fees_paid e = l_paid l.
Proof.
  intros Hm Hc H. cbv zeta. pose proof (wi_ledger _ _ _ (history_winv _ _ _ _ Hm Hc H)) as Hl.
  unfold reported_fills. rewrite Hl. repeat split.
Qed.

Definition rebate_ops : list op :=
  [ quote 99 101 1; OpLimit Buy (d 99) (d 1) 1; taker Sell 98 (d 1) 2; quote 97 98 3;
    OpLimit Sell (d 99) (d 1) 2; taker Buy 100 (d 1) 4 ].

Lemma rebate_lost : exists c ops e outs,
  history c ops e outs /\ no_check ops /\ ct_maker (c_spec c) < 0 /\ 0 <= ct_taker (c_spec c) /\
  ex_pos e = Neutral /\ all_fees (c_kind c) (c_scale c) (reported_fills c ops outs) < 0 /\
  wealth_of e = c_start c /\ fees_paid e = 0 /\
  map (fun f => (f_side f, f_price f)) (reported_fills c ops outs) = [(Buy, d 99); (Sell, d 99)].
Proof.
  exists (demo Linear true 1 (-2) 6 (d 1000) 10), rebate_ops.
  eexists _, _. split; [apply play_history; vm_compute; reflexivity|].
  split; [intros o H; repeat (destruct H as [<-|H]; [reflexivity|]); destruct H|].
  vm_compute. repeat split; discriminate.
Qed.
