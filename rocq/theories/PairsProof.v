(** Money moves between seven pairs of accounts only. *)
From Verif Require Import ProofBase StepLemmas OpLemmas FillLemmas Inv Spec SpecLedger.

Inductive flow : accounts -> accounts -> Prop :=
| fl_refl a : flow a a
| fl_step a b d c amt : flow a b -> 0 < amt -> moves d c -> flow a (transfer_pure b d c amt).

Lemma flow_one a d c amt : 0 < amt -> moves d c -> flow a (transfer_pure a d c amt).
Proof. intros; apply fl_step; [apply fl_refl | assumption..]. Qed.
Lemma flow_trans a b d : flow a b -> flow b d -> flow a d.
Proof. intros H1 H2; induction H2; [assumption | apply fl_step; auto]. Qed.

Lemma settle_flow acc profit margin due : 0 < margin -> flow acc (settle_acc acc profit margin due).
Proof.
  intros Hm. unfold settle_acc, pay_due.
  assert (H1 : flow acc (settle_profit acc profit)).
  { unfold settle_profit. destruct (Z.compare_spec profit 0); [apply fl_refl | |]; (apply flow_one; [lia | exact I]). }
  assert (H2 : flow acc (transfer_pure (settle_profit acc profit) WALLET POSITION_MARGIN margin)).
  { apply fl_step; [assumption | lia | exact I]. }
  destruct (Z.ltb_spec 0 due); [|exact H2]. apply fl_step; [assumption | lia | exact I].
Qed.
Lemma cp_flow c acc q p sd f pos pos' acc' : cp_case c acc q p sd f pos pos' acc' -> flow acc acc'.
Proof.
  destruct 1; try (apply flow_one; [assumption|exact I]); try (apply settle_flow; assumption).
  apply fl_step; [apply settle_flow; assumption | assumption | exact I].
Qed.
Lemma fe_flow c u e e' o q : fill_effect c u e e' o q -> flow (ex_acc e) (ex_acc e').
Proof.
  intros H. destruct (fe_acc _ _ _ _ _ _ H) as (acc1 & new_om & Hcp & _ & _ & ->).
  apply cp_flow in Hcp. destruct (Z.ltb_spec new_om (bal (ex_acc e) ORDER_MARGIN)); [|assumption].
  apply fl_step; [assumption | lia | exact I].
Qed.
Lemma fills_flow c u e l e' : fills c u e l e' -> flow (ex_acc e) (ex_acc e').
Proof. induction 1; [apply fl_refl | assumption | eapply flow_trans; [eapply fe_flow; eassumption | assumption]]. Qed.
Lemma append_flow c e o e' r : append_limit_order c e o = Done (e', r) -> flow (ex_acc e) (ex_acc e').
Proof.
  intros H. apply append_spec in H. destruct r as [[]|err].
  - destruct (ae_acc _ _ _ _ H) as (n & _ & [(_ & ->) | (Hne & -> & _)]); [apply fl_refl|].
    apply flow_one; [lia | exact I].
  - destruct H as (_ & [(-> & _) | (om' & r' & _ & -> & _)]); apply fl_refl.
Qed.
Lemma submit_limit_flow c e o e' r : submit_limit_order c e o = Done (e', r) -> flow (ex_acc e) (ex_acc e').
Proof.
  intros H. apply submit_limit_spec in H as [(err & _ & Hs & _) | (_ & _ & _ & _ & a & Ha & _)].
  - destruct Hs as (_ & -> & _). apply fl_refl.
  - apply append_flow in Ha. exact Ha.
Qed.
Lemma cancel_effect_flow c e e' b o : cancel_effect c e e' b o -> flow (ex_acc e) (ex_acc e').
Proof.
  intros H. destruct (ce_acc _ _ _ _ _ H) as (n & _ & Hle & ->).
  destruct (Z.ltb_spec n (bal (ex_acc e) ORDER_MARGIN)); [|apply fl_refl].
  apply flow_one; [lia | exact I].
Qed.
Lemma cancel_flow c e b e' r : cancel_limit_order c e b = Done (e', r) -> flow (ex_acc e) (ex_acc e').
Proof.
  intros H. apply cancel_spec in H as [_ H]. destruct r.
  - eapply cancel_effect_flow; eassumption.
  - destruct H as [-> _]. apply fl_refl.
Qed.
Lemma amend_flow c e id o e' r : amend_limit_order c e id o = Done (e', r) -> flow (ex_acc e) (ex_acc e').
Proof.
  intros H. apply amend_spec in H. destruct (get_by_id (ex_active e) id) as [ex|].
  - destruct H as [_ H]. destruct (_ <=? 0).
    + destruct H as [[x Hx] _]. eapply cancel_effect_flow; eassumption.
    + destruct H as (e1 & x & Hx & Hs). eapply flow_trans.
      * eapply cancel_effect_flow; eassumption.
      * eapply submit_limit_flow; eassumption.
  - destruct H as [-> _]. apply fl_refl.
Qed.
Lemma market_effect_flow c e e' o : market_effect c e e' o -> flow (ex_acc e) (ex_acc e').
Proof. intros H. eapply cp_flow. apply (me_cp _ _ _ _ H). Qed.
Lemma check_active_flow c e u e' : check_active_orders c e u = Done e' -> flow (ex_acc e) (ex_acc e').
Proof.
  intros H. apply check_active_spec in H as [(_ & ->) | (_ & e1 & act & _ & _ & Hf & _ & -> & _)].
  - apply fl_refl.
  - apply fills_flow in Hf. exact Hf.
Qed.
Lemma update_state_flow c e u e' r : update_state c e u = Done (e', r) -> flow (ex_acc e) (ex_acc e').
Proof.
  intros H. apply update_state_spec in H as [_ H]. cbv zeta in H.
  destruct (pre_check_fields c e u) as (Ha & _). rewrite <- Ha.
  destruct (check_maintenance_margin _ _ _ _).
  - destruct H as [_ H]. eapply check_active_flow; eassumption.
  - destruct H as [_ H]. apply liquidate_spec in H as (o & Hm & _). eapply market_effect_flow; eassumption.
Qed.
Lemma step_flow c e o e' r : step c e o = Done (e', r) -> flow (ex_acc e) (ex_acc e').
Proof.
  destruct o as [ru|sd q uid|sd p q uid|b|id sd p q uid|ru]; cbn [step]; intros H.
  - apply bind_done in H as [u [_ H]]. apply map_out_done in H as (r0 & H & ->).
    eapply update_state_flow; eassumption.
  - destruct (market_new sd q uid); [|inv; apply fl_refl].
    apply map_out_done in H as (r0 & H & ->). apply submit_market_spec in H.
    destruct r0; [destruct H as [_ H]; eapply market_effect_flow; eassumption|].
    destruct H as ((_ & -> & _) & _). apply fl_refl.
  - destruct (limit_new sd p q uid); [|inv; apply fl_refl].
    apply map_out_done in H as (r0 & H & ->). eapply submit_limit_flow; eassumption.
  - apply map_out_done in H as (r0 & H & ->). eapply cancel_flow; eassumption.
  - destruct (limit_new sd p q uid); [|inv; apply fl_refl].
    apply map_out_done in H as (r0 & H & ->). eapply amend_flow; eassumption.
  - apply bind_done in H as [u [_ H]]. apply bind_done in H as [e1 [H H1]]. inv.
    eapply check_active_flow; eassumption.
Qed.
