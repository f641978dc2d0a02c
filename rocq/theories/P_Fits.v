(** Properties C62 and C68: every number is a machine integer. *)
From Verif Require Import Base Types Exchange Spec Scenario ScenarioPanic Width Fixed SpecFixed ScenarioFixed Wrapped SpecWrapped SpecFits FitsProof.

(** C62: when the arguments are machine integers and no call overflows, every number the exchange stores or returns is a machine
    integer: amounts have [w] bits, counters and ids are [u64], times are [i64].  So no result of C62 is owed to a number the type
    cannot hold. *)
Theorem C62_state_fits : forall w, 0 < w -> forall c ops e outs,
  Forall (machine_integer w) (flat_map op_numbers ops) -> w_play w c ops = Fine (Done (e, outs)) ->
  Forall (machine_integer w) (state_numbers e ++ flat_map out_numbers outs).
Proof. exact checked_numbers. Qed.
Print Assumptions C62_state_fits.
(** C68: the same for the release build with its wrapping ledger. *)
Theorem C68_state_fits : forall w, 0 < w -> forall c ops e outs,
  Forall (machine_integer w) (flat_map op_numbers ops) -> v_play w c ops = Fine (Done (e, outs)) ->
  Forall (machine_integer w) (state_numbers e ++ flat_map out_numbers outs).
Proof. exact wrapping_numbers. Qed.
Print Assumptions C68_state_fits.

(** The history of C62 with fills, an amend, a flip and a liquidation: its arguments fit 26 bits, and the state at the end and the
    results have 94 numbers. *)
Example C62_fits_nonvacuous :
  Forall (machine_integer 26) (flat_map op_numbers demo_ops) /\
  exists e outs, w_play 26 (demo_cfg Linear true) demo_ops = Fine (Done (e, outs)) /\
    Z.of_nat (length (state_numbers e ++ flat_map out_numbers outs)) = 94.
Proof.
  split; [apply numbers_ok; vm_compute; reflexivity|].
  eexists _, _. split; [vm_compute; reflexivity|]. vm_compute; reflexivity.
Qed.
(** Placing and cancelling an order 300 times in a release build with [i32]: a ledger total has wrapped around. *)
Example C68_fits_nonvacuous :
  Forall (machine_integer 32) (flat_map op_numbers (idle_ops 300)) /\
  exists e outs, v_play 32 (demo_cfg Linear false) (idle_ops 300) = Fine (Done (e, outs)) /\ om_debits e < 0.
Proof.
  split; [apply numbers_ok; vm_compute; reflexivity|].
  eexists _, _. split; [vm_compute; reflexivity|]. vm_compute; reflexivity.
Qed.
