(** Properties C62 and C63: machine integers. *)
From Verif Require Import Base Types Accounting OrderMargin Exchange Spec SpecConfig SpecPanic Scenario ScenarioPanic Width Fixed SpecFixed ScenarioFixed
  FixedFacts ChurnProof.

(** C62: every call sequence on a fresh exchange over [w] bit integers either meets an overflow or returns or panics
    exactly like the exchange over unbounded integers. *)
Theorem C62_agreement : forall w c ops, w_play w c ops = Overflow \/ w_play w c ops = Fine (u_play c ops).
Proof. exact play_agrees. Qed.
Print Assumptions C62_agreement.
(** C62: so does every single call, in every state. *)
Theorem C62_call_agreement : forall w c e o, w_step w c e o = Overflow \/ w_step w c e o = Fine (step c e o).
Proof. exact call_agrees. Qed.
Print Assumptions C62_call_agreement.
(** C62: what does not overflow does not overflow in a wider type either. *)
Theorem C62_wider_type : forall w w' c ops x, w <= w' -> w_play w c ops = Fine x -> w_play w' c ops = Fine x.
Proof. exact play_widens. Qed.
Print Assumptions C62_wider_type.
(** C62: after calls without an overflow all twelve ledger totals fit the type. *)
Theorem C62_totals_fit : forall w c ops e outs id,
  0 < w -> w_play w c ops = Fine (Done (e, outs)) ->
  in_range w (ta_debits (get_account (ex_acc e) id)) /\ in_range w (ta_credits (get_account (ex_acc e) id)).
Proof. exact play_totals. Qed.
Print Assumptions C62_totals_fit.

(** A history with fills, an amend, a flip and a liquidation needs 26 bits, so all three integer types of the
    crate compute it. *)
Example C62_nonvacuous :
  overflows (w_play 25 (demo_cfg Linear true) demo_ops) = true /\
  w_play 26 (demo_cfg Linear true) demo_ops = Fine (play (demo_cfg Linear true) demo_ops) /\
  returns (w_play 32 (demo_cfg Linear true) demo_ops) = true /\
  returns (w_play 64 (demo_cfg Linear true) demo_ops) = true /\
  returns (w_play 128 (demo_cfg Linear true) demo_ops) = true /\
  overflows (w_play 24 (demo_cfg Inverse true) demo_inv) = true /\ returns (w_play 25 (demo_cfg Inverse true) demo_inv) = true.
Proof. vm_compute. repeat split. Qed.

(** C63 is refuted: the ledger totals are never netted, so an account that can place an order can overflow them
    without a single trade: after enough repetitions of submitting the order and cancelling it. *)
Theorem C63_unlimited_use_refuted : forall w c ops e outs sd p q uid e1 o,
  0 < w -> valid_config c -> w_play w c ops = Fine (Done (e, outs)) -> in_sync c e ->
  step c e (OpLimit sd p q uid) = Done (e1, Ok (OutLimit o)) -> order_margin_of e < order_margin_of e1 ->
  exists n, w_play w c (ops ++ churn sd p q uid (ex_next_id e) n) = Overflow.
Proof. exact churn_overflows. Qed.
Print Assumptions C63_unlimited_use_refuted.
(** C63: over unbounded integers every one of these calls succeeds, and each repetition books the margin of the
    order once more. *)
Theorem C63_totals_drift : forall c sd p q uid n e e1 o,
  valid_config c -> reachable c e -> in_sync c e -> step c e (OpLimit sd p q uid) = Done (e1, Ok (OutLimit o)) ->
  exists e' outs, run c e (churn sd p q uid (ex_next_id e) n) = Done (e', outs) /\ forallb is_ok outs = true /\
    om_debits e' = om_debits e + Z.of_nat n * (order_margin_of e1 - order_margin_of e).
Proof. exact churn_run. Qed.
Print Assumptions C63_totals_drift.

(** With [i32], four decimals and 1000.0000 units of money the 120th repetition overflows in a debug build,
    which also adds up all accounts, and the 240th in a release build. *)
Example C63_nonvacuous :
  returns (w_play 32 (demo_cfg Linear true) (idle_ops 119)) = true /\
  overflows (w_play 32 (demo_cfg Linear true) (idle_ops 120)) = true /\
  returns (w_play 32 (demo_cfg Linear false) (idle_ops 239)) = true /\
  overflows (w_play 32 (demo_cfg Linear false) (idle_ops 240)) = true /\
  valid_config (demo_cfg Linear true) /\
  exists e outs e1 o, w_play 32 (demo_cfg Linear true) (idle_ops 0) = Fine (Done (e, outs)) /\
    in_sync (demo_cfg Linear true) e /\ step (demo_cfg Linear true) e (OpLimit Buy (d 99) (d 9) 7) = Done (e1, Ok (OutLimit o)) /\
    order_margin_of e < order_margin_of e1.
Proof.
  split; [vm_compute; reflexivity|]. split; [vm_compute; reflexivity|]. split; [vm_compute; reflexivity|].
  split; [vm_compute; reflexivity|]. split; [apply demo_valid; [cbn; tauto | reflexivity | vm_compute; split; discriminate]|].
  eexists _, _, _, _. split; [vm_compute; reflexivity|]. split; [vm_compute; reflexivity|]. split; vm_compute; reflexivity.
Qed.
