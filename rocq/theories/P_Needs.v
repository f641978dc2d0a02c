(** Property C69: exact conditions of overflow. *)
From Verif Require Import Base Types Filters Accounting Currency Position OrderBook OrderMargin MarketUpdate Exchange Spec Scenario ScenarioPanic
  Width Fixed SpecBuild SpecFixed SpecFits SpecNeeds ScenarioFixed NeedsFacts BuildFixedProof.

(** On [w] bit integers a history overflows exactly when one of the numbers that it computes does not fit; otherwise it does what it does
    with unbounded integers.  [n_play] lists those numbers: every sum, difference, product, quotient and counter of every call, also those
    that are only looked at by an assertion, up to the first panic. *)
Theorem C69_history : forall w c ops, overflows_exactly w (w_play w c ops) (n_play c ops) (u_play c ops).
Proof. exact play_exact. Qed.
Print Assumptions C69_history.

(** The same for one call in any state whatsoever. *)
Theorem C69_call : forall w c e o, overflows_exactly w (w_step w c e o) (n_step c e o) (step c e o).
Proof. exact step_exact. Qed.
Print Assumptions C69_call.

Theorem C69_overflow_iff : forall w c ops,
  w_play w c ops = Overflow <-> Exists (fun n => ~ machine_integer w n) (n_play c ops).
Proof. exact overflow_iff. Qed.
Print Assumptions C69_overflow_iff.

(** Unless a counter or a time overflows, a history needs integers of a certain width: no more, no less. *)
Theorem C69_width : forall w c ops,
  0 < w -> Forall (fun n => ~ other_overflow n) (n_play c ops) -> (w_play w c ops = Overflow <-> w < width_of (n_play c ops)).
Proof. exact width_iff. Qed.
Print Assumptions C69_width.

(** The parts: conversions, profit and average prices; *)
Theorem C69_arithmetic : forall w k s,
  (forall q p, overflows_exactly w (w_convert_from w k s q p) (n_convert k s q p) (convert_from k s q p)) /\
  (forall en ex q, overflows_exactly w (w_pnl w k s en ex q) (n_pnl k s en ex q) (pnl k s en ex q)) /\
  (forall p0 q0 p1 q1, overflows_exactly w (w_new_weighted_price w s p0 q0 p1 q1) (n_weighted s p0 q0 p1 q1) (new_weighted_price s p0 q0 p1 q1)).
Proof. exact arithmetic_exact. Qed.
Print Assumptions C69_arithmetic.
(** a booking: both totals and, in debug builds, twelve sums over all accounts; *)
Theorem C69_booking : forall w dbg acc d c amt,
  overflows_exactly w (w_transfer w dbg acc d c amt) (n_transfer dbg acc d c amt) (transfer dbg acc d c amt).
Proof. exact ledger_exact. Qed.
Print Assumptions C69_booking.
(** the order margin. *)
Theorem C69_margin : forall w c book pos o,
  overflows_exactly w (w_order_margin_internal w c book pos o) (n_order_margin c book pos o) (order_margin_internal c book pos o).
Proof. exact margin_exact. Qed.
Print Assumptions C69_margin.

(** A history that a debug build completes, a release build completes with the same result; *)
Theorem C69_debug_suffices : forall w c ops x,
  w_play w c ops = Fine (Done x) -> w_play w (release c) ops = Fine (Done x).
Proof. exact release_follows. Qed.
Print Assumptions C69_debug_suffices.
(** but a debug build may overflow where a release build does not, as its assertions add up all accounts. *)
Theorem C69_release_suffices_refuted :
  ~ (forall w c ops x, w_play w (release c) ops = Fine (Done x) -> w_play w c ops = Fine (Done x)).
Proof. exact debug_needs_more. Qed.
Print Assumptions C69_release_suffices_refuted.

(** The history with fills, an amend, a flip and a liquidation computes 734 numbers and needs 26 bits; inverse, 692 numbers and 25 bits. *)
Example C69_nonvacuous :
  Z.of_nat (length (n_play (demo_cfg Linear true) demo_ops)) = 734 /\
  width_of (n_play (demo_cfg Linear true) demo_ops) = 26 /\
  Z.of_nat (length (n_play (demo_cfg Inverse true) demo_ops)) = 692 /\
  width_of (n_play (demo_cfg Inverse true) demo_ops) = 25 /\
  returns (w_play 26 (demo_cfg Linear true) demo_ops) = true /\
  overflows (w_play 25 (demo_cfg Linear true) demo_ops) = true.
Proof.
  split; [vm_compute; reflexivity|]. split; [vm_compute; reflexivity|]. split; [vm_compute; reflexivity|].
  split; [vm_compute; reflexivity|]. split; [vm_compute; reflexivity|]. vm_compute; reflexivity.
Qed.
(** 8 bits hold the quotients but not the difference: a loss of 200 on a position of one. *)
Example C69_pnl_difference :
  n_pnl Linear 1 100 (-100) 1 = [Amt (-100); Amt 100; Amt (-200)] /\
  w_pnl 8 Linear 1 100 (-100) 1 = Overflow /\ w_pnl 9 Linear 1 100 (-100) 1 = Fine (Done (-200)).
Proof. split; [vm_compute; reflexivity|]. split; [vm_compute; reflexivity|]. vm_compute; reflexivity. Qed.
(** Two placements and cancellations: 26 bits are enough in a release build only. *)
Example C69_builds_case :
  width_of (n_play (demo_cfg Linear true) (idle_ops 2)) = 27 /\ width_of (n_play (demo_cfg Linear false) (idle_ops 2)) = 26.
Proof. split; [vm_compute; reflexivity|]. vm_compute; reflexivity. Qed.
