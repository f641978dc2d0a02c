(** Cases for C89. *)
From Verif Require Import ProofBase Types Filters Position OrderMargin MarketUpdate Exchange Spec SpecConfig SpecMarket SpecMachine SpecCrash SpecLoose LooseProof Scenario ScenarioPanic ScenarioLoose.

Lemma narrow_wide : valid_config narrow /\ wider narrow 10 wide_pf wide_qf /\ valid_config (relax narrow 10 wide_pf wide_qf).
Proof.
  split; [constructor; vm_compute; repeat split; discriminate|]. split; [|constructor; vm_compute; repeat split; discriminate].
  constructor; cbn.
  - lia.
  - split; [lia|]. split; [exists 5; reflexivity | exists 90; reflexivity].
  - unfold d, S4. lia.
  - exact Logic.I.
  - auto.
  - auto.
  - split; [lia|]. split; [exists 5; reflexivity | exists 5; reflexivity].
  - exact Logic.I.
  - unfold d, S4. lia.
Qed.
Lemma crowded : exists e outs e' outs',
  history (relax narrow 1 narrow_pf narrow_qf) crowded_ops e outs /\ history narrow crowded_ops e' outs' /\ looser (relax narrow 1 narrow_pf narrow_qf) 2 narrow_pf narrow_qf /\
  nth 2 outs (Ok OutUnit) = Err EMaxNumberOfActiveOrders /\ position_quantity (ex_pos e) = d 1 /\
  nth 3 outs' (Ok OutUnit) = Err (ERisk NotEnoughAvailableBalance) /\ position_quantity (ex_pos e') = 0.
Proof.
  do 4 eexists. split; [apply play_history; vm_compute; reflexivity|]. split; [apply play_history; vm_compute; reflexivity|].
  split; [constructor; cbn [relax c_max c_spec ct_qf ct_pf c_scale]; auto; lia|]. vm_compute. repeat split.
Qed.
