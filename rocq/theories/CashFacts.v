(** Examples and counterexamples for cash accounts. *)
From Verif Require Import Base Types Filters Accounting Currency Position OrderBook OrderMargin Risk MarketUpdate Tracker Exchange Spec SpecConfig SpecPanic
  SpecMachine SpecCrash SpecCash Scenario ScenarioPanic ScenarioCash CashProof.

Lemma cash_cfg_valid dbg imr mm fee : 0 <= mm <= imr -> imr <= S4 -> valid_config (cash_cfg dbg imr mm fee).
Proof. intros. constructor; cbn [c_scale c_spec cash_cfg ct_imr ct_mm ct_pf ct_qf pf_tick qf_tick c_start c_max]; try lia; vm_compute; try reflexivity; split; discriminate. Qed.
Lemma cash_cfg_cash dbg fee : 0 <= fee <= S4 -> cash_config (cash_cfg dbg S4 S4 fee).
Proof. intros. repeat split; cbn; lia. Qed.

Ltac obeys :=
  vm_compute;
  repeat match goal with
  | |- True => exact I
  | |- _ /\ _ => split
  | |- _ = _ => reflexivity
  | |- False -> _ => intros []
  | |- _ = Gt -> False => discriminate
  | |- _ -> _ => intros _
  end.

Lemma cash_example : exists e outs,
  valid_config (cash_cfg false S4 S4 6) /\ cash_config (cash_cfg false S4 S4 6) /\ cash_calls (cash_cfg false S4 S4 6) (m_start (cash_cfg false S4 S4 6)) cash_ops /\
  history (cash_cfg false S4 S4 6) cash_ops e outs /\ length outs = 13%nat /\ Forall (fun r => exists x, r = Ok x) outs /\
  wallet_of e = 10630316.
Proof.
  destruct (play (cash_cfg false S4 S4 6) cash_ops) as [[e outs]|] eqn:E; [|vm_compute in E; discriminate].
  exists e, outs. split; [apply cash_cfg_valid; unfold S4; lia|]. split; [apply cash_cfg_cash; unfold S4; lia|]. split; [obeys|].
  split; [apply play_history; exact E|]. vm_compute in E. injection E as <- <-.
  split; [reflexivity|]. split; [repeat (apply Forall_cons; [eexists; reflexivity|]); apply Forall_nil | vm_compute; reflexivity].
Qed.

Lemma maintenance_needed : exists c ops o,
  c_kind c = Linear /\ ct_imr (c_spec c) = c_scale c /\ 0 < ct_mm (c_spec c) < c_scale c /\ c_dbg c = false /\
  cash_calls c (m_start c) (ops ++ [o]) /\ crashes c ops o PCancelMargin.
Proof.
  exists (cash_cfg false S4 5000 6), liquidated_ops, (OpCancel (ByUserOrderId 2)). do 2 (split; [reflexivity|]). split; [cbn; unfold S4; lia|].
  split; [reflexivity|]. split; [obeys|]. apply crash_by; [apply cash_cfg_valid; unfold S4; lia | vm_compute; reflexivity].
Qed.
Lemma leverage_needed : exists c ops o,
  c_kind c = Linear /\ 0 < ct_imr (c_spec c) < c_scale c /\ ct_mm (c_spec c) = ct_imr (c_spec c) /\ c_dbg c = false /\
  cash_calls c (m_start c) (ops ++ [o]) /\ crashes c ops o PWalletNegative.
Proof.
  exists (cash_cfg false 5000 5000 6), gap_ops, (cash_trade Buy (d 11) (d 1) 3). split; [reflexivity|]. split; [cbn; unfold S4; lia|].
  do 2 (split; [reflexivity|]). split; [obeys|]. apply crash_by; [apply cash_cfg_valid; unfold S4; lia | vm_compute; reflexivity].
Qed.
Lemma cover_needed : exists c ops o,
  cash_config c /\ c_dbg c = false /\
  calls_with c (fun m o m' => fair_call c o /\ priced_call c m o /\ (places o -> provided c m')) (m_start c) (ops ++ [o]) /\ crashes c ops o PCancelMargin.
Proof.
  exists (cash_cfg false S4 S4 6), uncovered_ops, (OpCancel (ByUserOrderId 2)). split; [apply cash_cfg_cash; unfold S4; lia|].
  split; [reflexivity|]. split; [obeys|]. apply crash_by; [apply cash_cfg_valid; unfold S4; lia | vm_compute; reflexivity].
Qed.
Lemma fees_needed : exists c ops o,
  cash_config c /\ c_dbg c = false /\
  calls_with c (fun m o m' => fair_call c o /\ priced_call c m o /\ (places o -> covered m')) (m_start c) (ops ++ [o]) /\ crashes c ops o PWalletNegative.
Proof.
  exists (cash_cfg false S4 S4 500), unprovided_ops, (cash_trade Buy (d 2) (d 1) 3). split; [apply cash_cfg_cash; unfold S4; lia|].
  split; [reflexivity|]. split; [obeys|]. apply crash_by; [apply cash_cfg_valid; unfold S4; lia | vm_compute; reflexivity].
Qed.
Lemma price_needed : exists c ops o,
  cash_config c /\ c_dbg c = false /\
  calls_with c (fun m o m' => fair_call c o /\ (places o -> covered m') /\ (places o -> provided c m')) (m_start c) (ops ++ [o]) /\ crashes c ops o PTxAmount.
Proof.
  exists (cash_cfg false S4 S4 6), cheap_ops, (cash_trade Sell 4000 1 3). split; [apply cash_cfg_cash; unfold S4; lia|].
  split; [reflexivity|]. split; [obeys|]. apply crash_by; [apply cash_cfg_valid; unfold S4; lia | vm_compute; reflexivity].
Qed.
Lemma debug_can : exists c ops o,
  cash_config c /\ c_dbg c = true /\ cash_calls c (m_start c) (ops ++ [o]) /\ crashes c ops o PCloseMarginDebug.
Proof.
  exists (cash_cfg true S4 S4 6), averaged_ops, (OpMarket Sell 6 3). split; [apply cash_cfg_cash; unfold S4; lia|].
  split; [reflexivity|]. split; [obeys|]. apply crash_by; [apply cash_cfg_valid; unfold S4; lia | vm_compute; reflexivity].
Qed.
