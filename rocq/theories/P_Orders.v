(** Properties C05, C06, C07, C23, C34. *)
From Coq Require Import Permutation Sorted.
From Verif Require Import Base Types OrderBook OrderMargin MarketUpdate Exchange Spec SpecBook SpecRules
  Scenario OrderProof RestingProof.

(** C05: the ids handed out increase strictly, and resting orders have distinct ids. *)
Theorem C05_ids_increase : forall c ops e outs,
  0 <= c_max c <= 10000 -> history c ops e outs ->
  StronglySorted Z.lt (issued_ids ops outs) /\
  NoDup (map lo_id (ex_active e)) /\
  (forall o, In o (ex_active e) -> In (lo_id o) (issued_ids ops outs)).
Proof. exact ids_unique. Qed.
Print Assumptions C05_ids_increase.

(** C06: every resting order has a positive remainder and adds up to the order that was accepted; every
    report is about an accepted order, and a fully filled report is for its whole quantity at its price. *)
Theorem C06_quantity_conserved : forall c ops e outs,
  0 <= c_max c <= 10000 -> history c ops e outs ->
  (forall o, In o (ex_active e) -> 0 < lo_rem o /\ exists a, In a (accepted_orders ops outs) /\ descends a o) /\
  (forall u, In u (reported ops outs) -> exists a, In a (accepted_orders ops outs) /\ report_matches a u).
Proof. exact quantity_conserved. Qed.
Print Assumptions C06_quantity_conserved.

(** C07: an order reported filled, cancelled or amended away is over, whatever happens later. *)
Theorem C07_finished_never_back : forall c ops1 e1 outs1 i ops2 e2 outs2,
  0 <= c_max c <= 10000 -> history c ops1 e1 outs1 -> In i (finished ops1 outs1) ->
  run c e1 ops2 = Done (e2, outs2) ->
  ~ In i (map lo_id (ex_active e2)) /\ ~ In i (map update_id (reported ops2 outs2)) /\
  (forall e3 r, step c e2 (OpCancel (ByOrderId i)) = Done (e3, r) -> e3 = e2 /\ r = Err EOrderNoLongerActive) /\
  (forall sd p q uid, 0 < p -> 0 < q ->
     step c e2 (OpAmend i sd p q uid) = Done (e2, Err EOrderNoLongerActive)).
Proof. exact finished_never_back. Qed.
Print Assumptions C07_finished_never_back.

(** C23: the reported updates are exactly the changes of the book. *)
Theorem C23_updates_exact : forall c e ru e' l,
  0 <= c_max c <= 10000 -> reachable c e -> step c e (OpUpdate ru) = Done (e', Ok (OutUpdates l)) ->
  NoDup (map update_id l) /\
  (forall u, In u l -> In (update_id u) (map lo_id (ex_active e))) /\
  Permutation (ex_active e') (apply_updates l (ex_active e)) /\
  (forall o, In (PartiallyFilled o) l -> In o (ex_active e')).
Proof. exact updates_exact. Qed.
Print Assumptions C23_updates_exact.

(** C34: resting orders respect the filters: the quantity with which the order was accepted (remaining
    plus filled) is allowed, and the price is positive, within the limits and on the grid. *)
Theorem C34_resting_orders_respect_filters : forall c ops e outs,
  0 <= c_max c <= 10000 -> history c ops e outs ->
  forall o, In o (ex_active e) ->
    quantity_allowed (ct_qf (c_spec c)) (lo_rem o + lo_filled_qty o) /\
    price_static (ct_pf (c_spec c)) (lo_price o).
Proof. exact resting_respects. Qed.
Print Assumptions C34_resting_orders_respect_filters.

(** A history with a partial fill, an amend, a rejection and two resting orders; and its continuation
    with a full fill, a cancel and further trading. *)
Example C05_C06_C34_nonvacuous : exists e outs,
  history (demo_cfg Linear true) demo_mid e outs /\
  map lo_id (ex_active e) = [2; 4] /\ issued_ids demo_mid outs = [0; 1; 2; 4] /\
  map update_id (reported demo_mid outs) = [1] /\
  map lo_rem (accepted_orders demo_mid outs) = [d 2; d 1; d 2].
Proof. eexists _, _. split; [apply play_history; vm_compute; reflexivity|]. vm_compute. repeat split. Qed.

Example C07_nonvacuous : exists e1 outs1 e2 outs2,
  history (demo_cfg Linear true) demo_mid e1 outs1 /\ finished demo_mid outs1 = [1] /\
  run (demo_cfg Linear true) e1 (skipn 8 demo_ops) = Done (e2, outs2) /\
  finished (skipn 8 demo_ops) outs2 = [2; 4].
Proof.
  eexists _, _, _, _. split; [apply play_history; vm_compute; reflexivity|]. split; [vm_compute; reflexivity|].
  split; [vm_compute; reflexivity|]. vm_compute. reflexivity.
Qed.

Example C23_nonvacuous : exists e outs e' l,
  history (demo_cfg Linear true) (firstn 5 demo_ops) e outs /\
  step (demo_cfg Linear true) e (nth 5 demo_ops (quote 1 2 3)) = Done (e', Ok (OutUpdates l)) /\
  map update_id l = [1] /\ map lo_id (ex_active e) = [1; 2] /\ map lo_rem (ex_active e') = [d 1; d 1].
Proof.
  eexists _, _, _, _. split; [apply play_history; vm_compute; reflexivity|]. split; [vm_compute; reflexivity|].
  vm_compute. repeat split.
Qed.
