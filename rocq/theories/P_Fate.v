(** Property C48. *)
From Coq Require Import Permutation.
From Verif Require Import Base Types OrderBook Tracker Stats Exchange Spec SpecBook SpecTrack SpecFate Scenario FateProof.

(** C48: the accepted limit orders are exactly those resting, those reported as fully filled and those
    withdrawn. *)
Theorem C48_fates : forall c ops e outs,
  0 <= c_max c <= 10000 -> no_check ops -> history c ops e outs ->
  Permutation (accepted_ids ops outs) (map lo_id (ex_active e) ++ completed ops outs ++ withdrawn ops outs).
Proof. exact fates. Qed.
Print Assumptions C48_fates.

(** C48: no order has two fates, or one fate twice. *)
Theorem C48_once : forall c ops e outs,
  0 <= c_max c <= 10000 -> no_check ops -> history c ops e outs ->
  NoDup (map lo_id (ex_active e) ++ completed ops outs ++ withdrawn ops outs).
Proof. exact fates_once. Qed.
Print Assumptions C48_once.

(** C48: the counters of the account tracker add up, so that its fill ratio and cancellation ratio add up to at most
    one. *)
Theorem C48_counters : forall c ops e outs,
  0 <= c_max c <= 10000 -> no_check ops -> history c ops e outs ->
  let t := ex_trk e in
  Z.of_nat (length (accepted_ids ops outs)) = Z.of_nat (length (ex_active e)) + tk_fully_filled t + tk_cancelled t /\
  Z.of_nat (length (accepted_ids ops outs)) <= tk_sub_limit t /\ 0 <= tk_fully_filled t /\ 0 <= tk_cancelled t.
Proof. exact lengths. Qed.
Print Assumptions C48_counters.

(** C48: the fill ratio is that of fully filled to submitted limit orders, the cancellation ratio that of withdrawn to
    submitted ones, and together they are at most one. *)
Theorem C48_ratios : forall c ops e outs,
  0 <= c_max c <= 10000 -> no_check ops -> history c ops e outs ->
  limit_order_fill_ratio (ex_trk e) = (Z.of_nat (length (completed ops outs)), tally limit_submitted (calls ops outs)) /\
  limit_order_cancellation_ratio (ex_trk e) = (Z.of_nat (length (withdrawn ops outs)), tally limit_submitted (calls ops outs)) /\
  Z.of_nat (length (completed ops outs)) + Z.of_nat (length (withdrawn ops outs)) <= tally limit_submitted (calls ops outs).
Proof. exact ratios. Qed.
Print Assumptions C48_ratios.

(** Four accepted orders: id 1 amended into id 4, which is cancelled; id 2 filled; id 6 rests. *)
Example C48_case :
  match play (demo_cfg Linear true) demo_ops with
  | Done (e, outs) =>
      accepted_ids demo_ops outs = [1; 2; 4; 6] /\ map lo_id (ex_active e) = [6] /\
      completed demo_ops outs = [2] /\ withdrawn demo_ops outs = [1; 4] /\
      tk_sub_limit (ex_trk e) = 5 /\ limit_order_fill_ratio (ex_trk e) = (1, 5) /\ limit_order_cancellation_ratio (ex_trk e) = (2, 5)
  | Panic _ => False
  end.
Proof. vm_compute. repeat split. Qed.
