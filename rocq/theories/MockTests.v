(** The test of the repository that moves a position with an accounting that ignores all transfers. *)
From Verif Require Import Base Types Position Exchange Ledger.
From Verif Require ModelTests.

(** src/position.rs:289-306, [position_change_position]: a short of 0.317 is closed; no assertion fires, in a debug or release build. *)
Example test_position_change_position : forall dbg,
  let c := ModelTests.cfg_of Linear ModelTests.S5 1 in
  let c := {| c_kind := c_kind c; c_scale := c_scale c; c_dbg := dbg; c_start := c_start c; c_max := c_max c; c_spec := c_spec c; c_sample_s := c_sample_s c |} in
  a_change_position mock c (Short (ModelTests.inner 31700 958423665 0)) 31700 3020427000 Buy 0 tt = Done (tt, Neutral).
Proof. intros [|]; vm_compute; reflexivity. Qed.
