(** Properties C01 and C42. *)
From Verif Require Import Base Types Accounting Position OrderBook OrderMargin MarketUpdate Exchange Spec Scenario Inv EntryProof.

(** C01: the books balance after every history, in every build mode and configuration. *)
Theorem C01_books_balance : forall c ops e outs,
  history c ops e outs ->
  total_debits e = total_credits e /\ sumZ (map (net_of e) all_accounts) = 0.
Proof. exact conservation. Qed.
Print Assumptions C01_books_balance.

(** C01: no call lowers a posted debit or credit, from any state. *)
Theorem C01_postings_only_grow : forall c e o e' r id,
  step c e o = Done (e', r) ->
  ta_debits (get_account (ex_acc e) id) <= ta_debits (get_account (ex_acc e') id) /\
  ta_credits (get_account (ex_acc e) id) <= ta_credits (get_account (ex_acc e') id).
Proof. exact (fun c e o e' r id H => tpath_mono _ _ id (step_tpath c e o e' r H)). Qed.
Print Assumptions C01_postings_only_grow.

(** A history with fills, a flip and a liquidation in which money moves through five accounts. *)
Example C01_nonvacuous : exists e outs,
  history (demo_cfg Linear true) demo_ops e outs /\ net_of e FEE > 0 /\ net_of e TREASURY <> - d 1000.
Proof. eexists _, _. split; [apply play_history; vm_compute; reflexivity|]. vm_compute. split; [reflexivity | discriminate]. Qed.

(** C42: limit order entry only moves money between wallet and order margin. *)
Theorem C42_order_entry_keeps_totals : forall c e o e' r,
  match o with OpLimit _ _ _ _ | OpCancel _ | OpAmend _ _ _ _ _ => true | _ => false end = true ->
  step c e o = Done (e', r) ->
  wallet_of e' + order_margin_of e' = wallet_of e + order_margin_of e /\
  position_margin_of e' = position_margin_of e /\ fees_paid e' = fees_paid e /\ ex_pos e' = ex_pos e.
Proof. exact entry_totals. Qed.
Print Assumptions C42_order_entry_keeps_totals.

Example C42_nonvacuous : exists e outs e1 r1 e2 r2,
  history (demo_cfg Linear true) demo_mid e outs /\ ex_pos e <> Neutral /\
  step (demo_cfg Linear true) e (OpLimit Buy (d 97) (d 1) 3) = Done (e1, Ok r1) /\
  order_margin_of e < order_margin_of e1 /\
  step (demo_cfg Linear true) e1 (OpCancel (ByOrderId 5)) = Done (e2, Ok r2) /\
  order_margin_of e2 < order_margin_of e1.
Proof.
  eexists _, _, _, _, _, _. split; [apply play_history; vm_compute; reflexivity|].
  split; [vm_compute; discriminate|]. split; [vm_compute; reflexivity|]. split; [vm_compute; reflexivity|].
  split; vm_compute; reflexivity.
Qed.
