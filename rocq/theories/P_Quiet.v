(** Property C53. *)
From Verif Require Import Base Types Tracker Exchange Untracked SpecQuiet Scenario ScenarioPanic UntrackedProof.

(** C53: an exchange with the empty tracker does what one with the full tracker does: same panic, or same results and
    the same state up to the tracker.  In particular the assertion in [log_trade] never decides. *)
Theorem C53_untracked_run : forall c e ops, q_run c (erase e) ops = erased (run c e ops).
Proof. exact untracked_run. Qed.
Print Assumptions C53_untracked_run.

(** C53: they start alike when the starting balance is positive, which only the full tracker requires in a release
    build. *)
Theorem C53_untracked_init : forall c, 0 < c_start c ->
  q_init c = match init c with Done e => Done (erase e) | Panic p => Panic p end.
Proof. exact untracked_init. Qed.
Print Assumptions C53_untracked_init.

(** The calls of the demonstration history, made to both. *)
Example C53_case :
  match play (L true) demo_ops, (q <- q_init (L true) ;; q_run (L true) q demo_ops) with
  | Done (e, outs), Done (q, outs') => outs' = outs /\ q = erase e /\ tk_buy_volume (ex_trk e) <> 0
  | _, _ => False
  end.
Proof. vm_compute. repeat split. discriminate. Qed.
