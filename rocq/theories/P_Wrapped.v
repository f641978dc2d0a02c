(** Property C68: the ledger totals of a release build may wrap around. *)
From Verif Require Import Base Types Accounting OrderBook OrderMargin Tracker Exchange Spec SpecConfig SpecPanic Scenario ScenarioPanic
  Width Fixed SpecFixed ScenarioFixed Wrapped SpecWrapped WrapProof WrapFacts WrapChurn.

(** C68: the exchange over a ledger parameter, with the ledger that stops at every overflow, is the exchange over machine integers
    of C62: the release build differs from it only in the ledger. *)
Theorem C68_same_functions : forall w c e o, g_step (checked_ledger w (c_dbg c)) w c e o = w_step w c e o.
Proof. exact same_step. Qed.
Print Assumptions C68_same_functions.
(** C68: every call sequence on a fresh exchange of a release build either makes a quantity other than a ledger total overflow, or
    returns or panics like the exchange over unbounded integers; the states then differ in nothing but the wrapped totals. *)
Theorem C68_release_agreement : forall w, 0 < w -> forall c ops, c_dbg c = false ->
  v_play w c ops = Overflow \/
  exists x, v_play w c ops = Fine x /\
    alike (fun a b => same_but_wrapped w (fst a) (fst b) /\ snd a = snd b) x (u_play c ops).
Proof. exact release_agrees. Qed.
Print Assumptions C68_release_agreement.
(** C68: the balances, which are differences of such totals, are exact. *)
Theorem C68_balances_exact : forall w c ops e outs,
  0 < w -> c_dbg c = false -> v_play w c ops = Fine (Done (e, outs)) ->
  exists e', u_play c ops = Done (e', outs) /\ same_but_wrapped w e e' /\
    forall id, v_balance w (ex_acc e) id = margin_balance_of (ex_acc e') id.
Proof. exact balances_survive. Qed.
Print Assumptions C68_balances_exact.
(** C68: a release build survives whatever the exchange of C62 survives. *)
Theorem C68_release_outlives : forall w, 0 < w -> forall c ops x,
  c_dbg c = false -> 0 < c_start c -> w_play w c ops = Fine x ->
  exists y, v_play w c ops = Fine y /\ alike (fun a b => snd a = snd b) y x.
Proof. exact release_outlives. Qed.
Print Assumptions C68_release_outlives.
(** C68: the use that overflows every checked type by C63 does no harm in a release build: an order that was placed and cancelled
    once can be placed and cancelled until a 64 bit counter is full, and all balances stay what they were. *)
Theorem C68_unlimited_use : forall w, 0 < w -> forall c ops e outs sd p q uid e1 e2 o x n,
  valid_config c -> c_dbg c = false -> v_play w c ops = Fine (Done (e, outs)) ->
  order_margin c (ex_active e) (ex_pos e) = Done (v_balance w (ex_acc e) ORDER_MARGIN) ->
  v_step w c e (OpLimit sd p q uid) = Fine (Done (e1, Ok (OutLimit o))) ->
  v_step w c e1 (OpCancel (ByOrderId (ex_next_id e))) = Fine (Done (e2, Ok x)) ->
  ex_next_id e + Z.of_nat n < 2 ^ 64 -> tk_sub_limit (ex_trk e) + Z.of_nat n < 2 ^ 64 -> tk_cancelled (ex_trk e) + Z.of_nat n < 2 ^ 64 ->
  exists e' more, v_play w c (ops ++ churn sd p q uid (ex_next_id e) n) = Fine (Done (e', outs ++ more)) /\ forallb is_ok more = true /\
    ex_active e' = ex_active e /\ ex_pos e' = ex_pos e /\ forall id, v_balance w (ex_acc e') id = v_balance w (ex_acc e) id.
Proof. exact release_forever. Qed.
Print Assumptions C68_unlimited_use.

(** With [i32] the checked exchange stops in the 240th repetition; the release build still returns after the 300th, with a negative
    total and the balances of the start. *)
Example C68_checked_stops : overflows (w_play 32 (demo_cfg Linear false) (idle_ops 240)) = true.
Proof. vm_compute; reflexivity. Qed.
Example C68_nonvacuous :
  exists e outs, v_play 32 (demo_cfg Linear false) (idle_ops 300) = Fine (Done (e, outs)) /\ forallb is_ok outs = true /\
    om_debits e = 300 * d 891 - 2 ^ 32 /\ om_debits e < 0 /\ v_balance 32 (ex_acc e) WALLET = d 1000 /\
    v_balance 32 (ex_acc e) ORDER_MARGIN = 0.
Proof.
  eexists _, _. split; [vm_compute; reflexivity|]. split; [vm_compute; reflexivity|].
  split; [vm_compute; reflexivity|]. split; [vm_compute; reflexivity|]. split; vm_compute; reflexivity.
Qed.
(** The first round succeeds, as the last theorem asks. *)
Example C68_first_round :
  valid_config (demo_cfg Linear false) /\
  exists e outs e1 o e2 x, v_play 32 (demo_cfg Linear false) (idle_ops 0) = Fine (Done (e, outs)) /\
    order_margin (demo_cfg Linear false) (ex_active e) (ex_pos e) = Done (v_balance 32 (ex_acc e) ORDER_MARGIN) /\
    v_step 32 (demo_cfg Linear false) e (OpLimit Buy (d 99) (d 9) 7) = Fine (Done (e1, Ok (OutLimit o))) /\
    v_step 32 (demo_cfg Linear false) e1 (OpCancel (ByOrderId (ex_next_id e))) = Fine (Done (e2, Ok x)).
Proof.
  split; [apply demo_valid; [cbn; tauto | reflexivity | vm_compute; split; discriminate]|].
  eexists _, _, _, _, _, _. split; [vm_compute; reflexivity|]. split; [vm_compute; reflexivity|].
  split; [vm_compute; reflexivity|]. vm_compute; reflexivity.
Qed.
(** A balance itself does not wrap around: 24 bits do not hold 1000.0000. *)
Example C68_balance_overflow : v_play 24 (demo_cfg Linear false) [] = Overflow /\ returns (v_play 25 (demo_cfg Linear false) []) = true.
Proof. split; vm_compute; reflexivity. Qed.
