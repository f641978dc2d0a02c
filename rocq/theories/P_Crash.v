(** Property C61: exactly which calls panic, and at which assertion. *)
From Verif Require Import Base Types Accounting Position OrderMargin MarketUpdate Exchange Spec SpecConfig SpecPanic SpecMachine SpecCrash
  Scenario ScenarioPanic CrashProof.

(** C61: a call panics at an assertion exactly when the machine says so. *)
Theorem C61_panics_exactly : forall c e o w,
  valid_config c -> reachable c e -> (step c e o = Panic w <-> m_crash c (machine_of e) o = Some w).
Proof. exact crash_iff. Qed.
Print Assumptions C61_panics_exactly.
(** C61: a call returns exactly when the machine finds no failing assertion. *)
Theorem C61_returns_exactly : forall c e o,
  valid_config c -> reachable c e -> ((exists e' r, step c e o = Done (e', r)) <-> m_crash c (machine_of e) o = None).
Proof. exact returns_iff. Qed.
Print Assumptions C61_returns_exactly.
(** C61: every call sequence on a fresh exchange, panics included, is that of the machine. *)
Theorem C61_exact_history : forall c ops,
  valid_config c -> exists e0, init c = Done e0 /\ seen (run c e0 ops) = m_play c (m_start c) ops.
Proof. exact exec_history. Qed.
Print Assumptions C61_exact_history.
(** C61: two exchanges that look like the same machine answer all further call sequences alike. *)
Theorem C61_same_future : forall c e1 e2 ops,
  valid_config c -> reachable c e1 -> reachable c e2 -> machine_of e1 = machine_of e2 ->
  seen (run c e1 ops) = seen (run c e2 ops).
Proof. exact same_machine_same_future. Qed.
Print Assumptions C61_same_future.

(** The machine panics at the assertions of all crash scenarios and nowhere on the demo history. *)
Example C61_nonvacuous :
  Forall (fun w : witness => let '(c, ops, o, p) := w in
            valid_config c /\ m_play c (m_start c) (ops ++ [o]) = Panic p)
    (market_witnesses ++ limit_witnesses ++ cancel_witnesses ++ amend_witnesses ++ update_witnesses) /\
  m_play (demo_cfg Linear true) (m_start (demo_cfg Linear true)) demo_ops =
    Done (m_run (demo_cfg Linear true) (m_start (demo_cfg Linear true)) demo_ops).
Proof.
  split; [|vm_compute; reflexivity].
  assert (V : forall c ops o p, In (c, ops, o, p)
    (market_witnesses ++ limit_witnesses ++ cancel_witnesses ++ amend_witnesses ++ update_witnesses) -> valid_config c) by valid_all.
  apply Forall_forall. intros [[[c ops] o] p] H. split; [eapply V; exact H|]. clear V. cbn in H.
  repeat (destruct H as [H|H]; [injection H as <- <- <- <-; vm_compute; reflexivity|]). destruct H.
Qed.
