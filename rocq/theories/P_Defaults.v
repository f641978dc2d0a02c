(** Property C67. *)
From Verif Require Import Base Types Filters OrderMargin Exchange Untracked Helpers Defaults SpecConfig SpecDefaults ScenarioDefaults DefaultsProof.

(** C67: the default contract specification is the one meant exactly for the currencies with four decimals or more,
    whatever the decimal library does with a fee that needs more decimals than there are. *)
Theorem C67_default_exactly : forall m D,
  (exists ct, contract_default m D = Done ct /\ meant (10 ^ Z.of_nat D) ct) <-> (4 <= D)%nat.
Proof. exact default_exactly. Qed.
Print Assumptions C67_default_exactly.
(** C67: with one to three decimals it panics or has no fees; with none it panics. *)
Theorem C67_default_small : forall m D, (1 <= D <= 3)%nat ->
  match m with
  | Refuse => contract_default m D = Panic PDefaultFee
  | CutOff => exists ct, contract_default m D = Done ct /\ meant_free (10 ^ Z.of_nat D) ct
  end.
Proof. exact default_small. Qed.
Print Assumptions C67_default_small.
Theorem C67_default_none : forall m, contract_default m 0 = Panic PDefaultFee \/ contract_default m 0 = Panic PDefaultContract.
Proof. exact default_none. Qed.
Print Assumptions C67_default_none.

(** C67: it accepts exactly whole prices up to twice the mid price and whole quantities. *)
Theorem C67_default_price : forall m D ct p mark, contract_default m D = Done ct -> 0 <= mark ->
  (validate_limit_price (10 ^ Z.of_nat D) (ct_pf ct) p mark = Done (Ok tt) <-> 0 < p <= 2 * mark /\ whole (10 ^ Z.of_nat D) p).
Proof. exact default_price. Qed.
Print Assumptions C67_default_price.
Theorem C67_default_quantity : forall m D ct q, contract_default m D = Done ct ->
  (validate_order_quantity (ct_qf ct) q = Done (Ok tt) <-> q <> 0 /\ whole (10 ^ Z.of_nat D) q).
Proof. exact default_quantity. Qed.
Print Assumptions C67_default_quantity.

(** C67: every configuration made from it, and those of the exchanges for tests, are among those of the other properties. *)
Theorem C67_default_valid : forall m D k dbg start max sample ct c, contract_default m D = Done ct ->
  config_new k (10 ^ Z.of_nat D) dbg start max ct sample = Ok c -> 0 <= max <= 10000 -> valid_config c.
Proof. exact default_valid. Qed.
Print Assumptions C67_default_valid.
Theorem C67_mock_valid : forall m dbg start c,
  mock_exchange_linear m dbg = Done c \/ mock_exchange_linear_with_account_tracker m dbg start = Done c \/
  mock_exchange_inverse m dbg start = Done c -> valid_config c.
Proof. exact mock_all_valid. Qed.
Print Assumptions C67_mock_valid.
(** C67: the exchanges for tests always exist, given a positive balance. *)
Theorem C67_mock_linear : forall m dbg, mock_exchange_linear m dbg = Done (mock_cfg Linear dbg (1000 * M5) 10 1000).
Proof. exact mock_linear_is. Qed.
Print Assumptions C67_mock_linear.
Theorem C67_mock_tracked : forall m dbg start, mock_exchange_linear_with_account_tracker m dbg start =
  if 0 <? start then Done (mock_cfg Linear dbg start 200 1000) else Panic PMockSetup.
Proof. exact mock_tracked_is. Qed.
Print Assumptions C67_mock_tracked.
Theorem C67_mock_inverse : forall m dbg start, mock_exchange_inverse m dbg start =
  if 0 <? start then Done (mock_cfg Inverse dbg start 200 M5) else Panic PMockSetup.
Proof. exact mock_inverse_is. Qed.
Print Assumptions C67_mock_inverse.

(** C67: but on the exchange the tests of the crate use, in either build mode, cancelling an order that survived a
    liquidation panics. *)
Theorem C67_mock_safe_refuted : forall m dbg, exists c e0 e outs, mock_exchange_linear m dbg = Done c /\ q_init c = Done e0 /\
  q_run c e0 mock_ops = Done (e, outs) /\ q_step c e (OpCancel (ByOrderId 1)) = Panic PCancelMargin.
Proof. exact mock_crash. Qed.
Print Assumptions C67_mock_safe_refuted.

(** Eight decimals; five calls on the exchange for tests that all succeed. *)
Example C67_nonvacuous :
  (exists ct, contract_default Refuse 8 = Done ct /\ ct_mm ct = 50000000 /\ ct_maker ct = 20000 /\ ct_taker ct = 60000) /\
  exists c e0 e outs, mock_exchange_linear Refuse true = Done c /\ q_init c = Done e0 /\
    q_run c e0 mock_calm = Done (e, outs) /\ length (filter is_ok outs) = 5%nat.
Proof. split; [eexists; split; [vm_compute; reflexivity|]; repeat split | exact (mock_runs Refuse true)]. Qed.
