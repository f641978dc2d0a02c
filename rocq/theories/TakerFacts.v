(** Examples and counterexamples for takers. *)
From Verif Require Import Base Types Filters Accounting Currency Position OrderBook OrderMargin Risk MarketUpdate Tracker Exchange Spec SpecConfig SpecPanic SpecMarket
  SpecMachine SpecCrash SpecCash SpecTaker Scenario ScenarioPanic ScenarioCash ScenarioTaker CashProof TakerProof.

Lemma lever_valid k dbg most : valid_config (lever k dbg most).
Proof. constructor; cbn [c_scale c_spec lever ct_imr ct_mm ct_pf ct_qf pf_tick qf_tick c_start c_max]; try lia; vm_compute; try reflexivity; split; discriminate. Qed.
Lemma whole_d n : (S4 | d n).
Proof. exists n. reflexivity. Qed.

(** The rules hold of a concrete list of calls. *)
Ltac wholly := match goal with |- (_ | ?x) => exists (Z.quot x S4); vm_compute; reflexivity end.
Ltac rule1 :=
  match goal with
  | |- True => exact I
  | |- _ /\ _ => split
  | |- (_ | _) => wholly
  | |- round_trip _ (OpUpdate _) => exact I
  | |- round_trip _ (OpCancel _) => exact I
  | |- tradable _ _ => first [left; vm_compute; reflexivity | right; vm_compute; reflexivity]
  | |- round_trip _ (OpMarket _ _ _) => vm_compute; first [left; reflexivity | right; split; [reflexivity | discriminate]]
  | |- weighty _ _ => split; vm_compute; reflexivity
  | |- no_flip _ _ _ => vm_compute; intros; first [discriminate | assumption]
  | |- priced_data _ _ => split; [vm_compute; auto | split; [reflexivity | vm_compute; intros; first [discriminate | reflexivity]]]
  | |- solvent_for _ _ => vm_compute; first [exact I | discriminate]
  end.
Lemma calls_cons c (rule : machine -> op -> machine -> Prop) m o l m' :
  fst (m_call c m o) = m' -> rule m o m' -> calls_with c rule m' l -> calls_with c rule m (o :: l).
Proof. intros <- H1 H2. split; assumption. Qed.
Ltac rules :=
  match goal with |- calls_with ?c ?r ?m ?l => let l' := eval vm_compute in l in change (calls_with c r m l') end;
  repeat (match goal with |- calls_with _ _ _ (_ :: _) => idtac end; eapply calls_cons;
    [ vm_compute; reflexivity
    | unfold taker_call, round_call; cbn [only_market well_priced solvent whole heavy one_way closable]; repeat match goal with |- _ /\ _ => split end; rule1
    | ]); exact I.

Lemma taker_example : exists e outs,
  valid_config (lever Linear false None) /\ calls_with (lever Linear false None) (taker_call (lever Linear false None)) (m_start (lever Linear false None)) taker_ops /\
  history (lever Linear false None) taker_ops e outs /\ In (Err (ERisk Liquidate)) outs /\ wallet_of e < 0.
Proof.
  assert (R : calls_with (lever Linear false None) (taker_call (lever Linear false None)) (m_start (lever Linear false None)) taker_ops) by rules.
  destruct (play (lever Linear false None) taker_ops) as [[e outs]|] eqn:E; [|vm_compute in E; discriminate].
  exists e, outs. split; [apply lever_valid|]. split; [exact R|]. split; [apply play_history; exact E|]. vm_compute in E. injection E as <- <-.
  split; [cbn [In]; repeat (first [left; reflexivity | right]) | vm_compute; reflexivity].
Qed.

Lemma round_example : exists e outs,
  valid_config (lever Linear true None) /\ calls_with (lever Linear true None) (round_call (lever Linear true None)) (m_start (lever Linear true None)) round_ops /\
  history (lever Linear true None) round_ops e outs /\ In (Err (ERisk Liquidate)) outs /\ ex_pos e = Neutral.
Proof.
  assert (R : calls_with (lever Linear true None) (round_call (lever Linear true None)) (m_start (lever Linear true None)) round_ops) by rules.
  destruct (play (lever Linear true None) round_ops) as [[e outs]|] eqn:E; [|vm_compute in E; discriminate].
  exists e, outs. split; [apply lever_valid|]. split; [exact R|]. split; [apply play_history; exact E|]. vm_compute in E. injection E as <- <-.
  split; [cbn [In]; repeat (first [left; reflexivity | right]) | reflexivity].
Qed.

(** ** Every rule is needed *)
Lemma one_way_needed : exists c ops o,
  c_dbg c = false /\
  calls_with c (fun m o m' => only_market o /\ well_priced c o /\ solvent m o /\ whole c o /\ heavy c m o /\ closable c o m') (m_start c) (ops ++ [o]) /\
  crashes c ops o PFlipMargin.
Proof.
  exists (lever Linear false None), rounded_ops, (OpMarket Sell (d 3) 3). split; [reflexivity|]. split; [rules|].
  apply crash_by; [apply lever_valid | vm_compute; reflexivity].
Qed.
Lemma closable_needed : exists c ops o,
  c_dbg c = false /\
  calls_with c (fun m o m' => only_market o /\ well_priced c o /\ solvent m o /\ whole c o /\ heavy c m o /\ one_way m o) (m_start c) (ops ++ [o]) /\
  crashes c ops o PLiquidateSubmit.
Proof.
  exists (lever Linear false (Some (d 3))), large_ops, (quote 50 51 2). split; [reflexivity|]. split; [rules|].
  apply crash_by; [apply lever_valid | vm_compute; reflexivity].
Qed.
Lemma solvent_needed : exists c ops o,
  c_dbg c = false /\
  calls_with c (fun m o m' => only_market o /\ well_priced c o /\ whole c o /\ heavy c m o /\ one_way m o /\ closable c o m') (m_start c) (ops ++ [o]) /\
  crashes c ops o PWalletNegative.
Proof.
  exists (lever Linear false None), broke_ops, (cash_trade Buy (d 11) (d 1) 3). split; [reflexivity|]. split; [rules|].
  apply crash_by; [apply lever_valid | vm_compute; reflexivity].
Qed.
Lemma heavy_needed : exists c ops o,
  c_dbg c = false /\
  calls_with c (fun m o m' => only_market o /\ well_priced c o /\ solvent m o /\ whole c o /\ one_way m o /\ closable c o m') (m_start c) (ops ++ [o]) /\
  crashes c ops o PTxAmount.
Proof.
  exists (lever Linear false None), [raw_quote 4 5 1], (OpMarket Buy (d 1) 3). split; [reflexivity|]. split; [rules|].
  apply crash_by; [apply lever_valid | vm_compute; reflexivity].
Qed.
Lemma whole_needed : exists c ops o,
  c_dbg c = false /\
  calls_with c (fun m o m' => only_market o /\ well_priced c o /\ solvent m o /\ heavy c m o /\ one_way m o /\ closable c o m') (m_start c) (ops ++ [o]) /\
  crashes c ops o PTxAmount.
Proof.
  exists (lever Linear false None), [raw_quote 99 100 1], (OpMarket Buy 1 3). split; [reflexivity|]. split; [rules|].
  apply crash_by; [apply lever_valid | vm_compute; reflexivity].
Qed.
Lemma quotes_needed : exists c ops o,
  c_dbg c = false /\
  calls_with c (fun m o m' => only_market o /\ solvent m o /\ whole c o /\ heavy c m o /\ one_way m o /\ closable c o m') (m_start c) (ops ++ [o]) /\
  crashes c ops o PSettlePrice.
Proof.
  exists (lever Linear false None), long_ops, (quote 0 1 2). split; [reflexivity|]. split; [rules|].
  apply crash_by; [apply lever_valid | vm_compute; reflexivity].
Qed.
Lemma market_needed : exists c ops o,
  c_dbg c = false /\
  calls_with c (fun m o m' => well_priced c o /\ solvent m o /\ whole c o /\ heavy c m o /\ one_way m o /\ closable c o m') (m_start c) (ops ++ [o]) /\
  crashes c ops o PCancelMargin.
Proof.
  exists (lever Linear false None), hedged_ops, (OpCancel (ByOrderId 0)). split; [reflexivity|]. split; [rules|].
  apply crash_by; [apply lever_valid | vm_compute; reflexivity].
Qed.
Lemma taker_debug_can : exists c ops o,
  c_dbg c = true /\ calls_with c (taker_call c) (m_start c) (ops ++ [o]) /\ crashes c ops o PCloseMarginDebug.
Proof.
  exists (lever Linear true None), rounded_ops, (OpMarket Sell (d 2) 3). split; [reflexivity|]. split; [rules|].
  apply crash_by; [apply lever_valid | vm_compute; reflexivity].
Qed.
Lemma taker_inverse : exists e outs,
  valid_config (lever Inverse false None) /\
  calls_with (lever Inverse false None) (taker_call (lever Inverse false None)) (m_start (lever Inverse false None)) taker_ops /\
  history (lever Inverse false None) taker_ops e outs /\ In (Err (ERisk Liquidate)) outs.
Proof.
  assert (R : calls_with (lever Inverse false None) (taker_call (lever Inverse false None)) (m_start (lever Inverse false None)) taker_ops) by rules.
  destruct (play (lever Inverse false None) taker_ops) as [[e outs]|] eqn:E; [|vm_compute in E; discriminate].
  exists e, outs. split; [apply lever_valid|]. split; [exact R|]. split; [apply play_history; exact E|]. vm_compute in E. injection E as <- <-.
  cbn [In]; repeat (first [left; reflexivity | right]).
Qed.
