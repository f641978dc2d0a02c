(** Property C60: the exchange is a small reference machine. *)
From Verif Require Import Base Types Accounting Position OrderMargin MarketUpdate Exchange Spec SpecConfig SpecMachine Scenario ScenarioPanic MachineProof.

(** C60: on every history that does not panic, the results of all calls and the final state are those of the
    reference machine. *)
Theorem C60_reference_history : forall c ops e outs,
  valid_config c -> history c ops e outs -> m_run c (m_start c) ops = (machine_of e, outs).
Proof. exact machine_history. Qed.
Print Assumptions C60_reference_history.
(** C60: so does every single call. *)
Theorem C60_reference_call : forall c e o e' r,
  valid_config c -> reachable c e -> step c e o = Done (e', r) -> m_call c (machine_of e) o = (machine_of e', r).
Proof. exact machine_step. Qed.
Print Assumptions C60_reference_call.
(** C60: the machine does not store the wallet; it is what the margins leave. *)
Theorem C60_reference_wallet : forall e, m_free (machine_of e) = wallet_of e.
Proof. exact machine_wallet. Qed.
Print Assumptions C60_reference_wallet.

(** The machine on a history with fills, an amend, a flip and a liquidation. *)
Example C60_nonvacuous :
  (exists e outs, history (demo_cfg Linear true) demo_ops e outs /\ valid_config (demo_cfg Linear true) /\
     m_run (demo_cfg Linear true) (m_start (demo_cfg Linear true)) demo_ops = (machine_of e, outs)) /\
  snd (m_run (demo_cfg Linear true) (m_start (demo_cfg Linear true)) demo_ops) = results (play (demo_cfg Linear true) demo_ops) /\
  length (results (play (demo_cfg Linear true) demo_ops)) = 13%nat /\
  m_free (fst (m_run (demo_cfg Linear true) (m_start (demo_cfg Linear true)) demo_ops)) = 7825222.
Proof.
  assert (V : valid_config (demo_cfg Linear true)) by (apply demo_valid; [cbn; tauto | reflexivity | vm_compute; split; discriminate]).
  split; [|split; [vm_compute; reflexivity | split; vm_compute; reflexivity]].
  destruct (play (demo_cfg Linear true) demo_ops) as [[e outs]|] eqn:E; [|vm_compute in E; discriminate].
  apply play_history in E. exists e, outs. split; [exact E|]. split; [exact V|]. apply machine_history; assumption.
Qed.
