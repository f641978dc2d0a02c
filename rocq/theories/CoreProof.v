(** Induction over everything that can change accounts and position: fills and moves between wallet and
    order margin. *)
From Coq Require Import Permutation.
From Verif Require Import ProofBase BookLemmas StepLemmas FillLemmas OpLemmas Inv Spec BookProof OrderProof.

Definition core_fill (c : config) (P : accounts -> position -> Prop) : Prop :=
  forall acc q p sd rate pos pos' acc', 0 < q -> 0 < p -> rate = ct_maker (c_spec c) \/ rate = ct_taker (c_spec c) ->
  pos_ok pos -> cp_case c acc q p sd (fee_of c q p rate) pos pos' acc' -> P acc pos -> P acc' pos'.
Definition core_move (P : accounts -> position -> Prop) : Prop :=
  forall acc pos n, 0 < n -> P acc pos ->
  P (transfer_pure acc ORDER_MARGIN WALLET n) pos /\ P (transfer_pure acc WALLET ORDER_MARGIN n) pos.

Section Core.
  Variable c : config.
  Variable P : accounts -> position -> Prop.
  Hypothesis HF : core_fill c P.
  Hypothesis HM : core_move P.

  Lemma core_fills u l e e' :
    fills c u e l e' -> (forall o, In o l -> order_ok o) -> pos_ok (ex_pos e) -> P (ex_acc e) (ex_pos e) -> P (ex_acc e') (ex_pos e').
  Proof.
    induction 1 as [|e o l e' Hn Hl IH|e o q e1 l e' Hq He Hl IH]; intros Hok Hp H; auto.
    - apply IH; auto. intros; apply Hok; right; assumption.
    - destruct (fe_acc _ _ _ _ _ _ He) as (acc1 & n & Hcp & _ & _ & Ha).
      assert (H1 : P acc1 (ex_pos e1)).
      { eapply HF; [| | | exact Hp | exact Hcp | exact H]; [apply (fe_q _ _ _ _ _ _ He) | | left; reflexivity].
        destruct (Hok o (or_introl eq_refl)) as (_ & Hx & _). exact Hx. }
      apply IH; [intros; apply Hok; right; assumption | eapply cp_pos_ok; eassumption |]. rewrite Ha.
      match goal with |- P (if ?b then _ else _) _ => destruct b eqn:E end; [|exact H1]. apply HM; [lia | exact H1].
  Qed.

  Lemma core_market e e' o : pos_ok (ex_pos e) -> market_effect c e e' o -> P (ex_acc e) (ex_pos e) -> P (ex_acc e') (ex_pos e').
  Proof.
    intros Hp M H. eapply HF; [apply (me_qty _ _ _ _ M) | apply (me_price _ _ _ _ M) | right; reflexivity | exact Hp | apply (me_cp _ _ _ _ M) | exact H].
  Qed.

  Lemma core_cancel e e' by_ o : cancel_effect c e e' by_ o -> P (ex_acc e) (ex_pos e) -> P (ex_acc e') (ex_pos e').
  Proof.
    intros C H. rewrite (ce_pos _ _ _ _ _ C). destruct (ce_acc _ _ _ _ _ C) as (n & _ & Hle & ->).
    match goal with |- P (if ?b then _ else _) _ => destruct b eqn:E end; [|exact H]. apply HM; [lia | exact H].
  Qed.

  Lemma core_limit e o e' r : submit_limit_order c e o = Done (e', r) -> P (ex_acc e) (ex_pos e) -> P (ex_acc e') (ex_pos e').
  Proof.
    intros H HP. apply submit_limit_spec in H as [(err & _ & Hs & _) | (_ & _ & _ & _ & a & Ha & _)].
    - destruct Hs as (_ & -> & -> & _). exact HP.
    - apply append_spec in Ha. destruct a as [[]|].
      + rewrite (ae_pos _ _ _ _ Ha). destruct (ae_acc _ _ _ _ Ha) as (n & _ & [(_ & ->)|(Hne & -> & _)]); [exact HP|].
        apply HM; [cbn in Hne |- *; lia | exact HP].
      + destruct Ha as [_ [(-> & _)|(om' & r' & _ & -> & _)]]; exact HP.
  Qed.

  Lemma core_check e u e' : Inv c e -> check_active_orders c e u = Done e' -> P (ex_acc e) (ex_pos e) -> P (ex_acc e') (ex_pos e').
  Proof.
    intros I H HP. apply check_active_spec in H as [(_ & ->)|(_ & e1 & act & _ & _ & Hf & _ & -> & _)]; [exact HP|].
    cbn [set_active ex_acc ex_pos]. eapply core_fills; [exact Hf | apply (inv_ok _ _ I) | apply (inv_pos _ _ I) | exact HP].
  Qed.

  Lemma step_core e o e' r : Inv c e -> step c e o = Done (e', r) -> P (ex_acc e) (ex_pos e) -> P (ex_acc e') (ex_pos e').
  Proof.
    intros I H HP. destruct o as [ru|sd q uid|sd p q uid|b|id sd p q uid|ru]; cbn [step] in H.
    - apply bind_done in H as [u [_ H]]. apply map_out_done in H as (rr & H & _). apply update_state_spec in H as [_ H]. cbv zeta in H.
      pose proof (pre_check_inv c e u I) as I0. destruct (pre_check_fields c e u) as (E1 & E2 & _).
      destruct (check_maintenance_margin _ _ _ _).
      + destruct H as [_ H]. eapply core_check; [exact I0 | exact H |]. rewrite E1, E2. exact HP.
      + destruct H as [_ H]. apply liquidate_spec in H as (o & M & _). eapply core_market; [apply (inv_pos _ _ I0) | exact M |]. rewrite E1, E2. exact HP.
    - destruct (market_new sd q uid); [|inv; exact HP]. apply map_out_done in H as (rr & H & _). apply submit_market_spec in H.
      destruct rr; [destruct H as [_ M]; eapply core_market; [apply (inv_pos _ _ I) | exact M | exact HP]|].
      destruct H as ((_ & -> & -> & _) & _). exact HP.
    - destruct (limit_new sd p q uid); [|inv; exact HP]. apply map_out_done in H as (rr & H & _). eapply core_limit; eassumption.
    - apply map_out_done in H as (rr & H & _). apply cancel_spec in H as [_ H]. destruct rr; [eapply core_cancel; eassumption|].
      destruct H as (-> & _). exact HP.
    - destruct (limit_new sd p q uid); [|inv; exact HP]. apply map_out_done in H as (rr & H & _). apply amend_spec in H.
      destruct (get_by_id (ex_active e) id); [|destruct H as [-> _]; exact HP]. destruct H as [_ H].
      destruct (_ <=? 0).
      + destruct H as [[x H] _]. eapply core_cancel; eassumption.
      + destruct H as (e1 & x & Hc & H). eapply core_limit; [exact H|]. eapply core_cancel; eassumption.
    - apply bind_done in H as [u [_ H]]. apply bind_done in H as [e1 [H Hr]]. injection Hr as <- <-. eapply core_check; eassumption.
  Qed.

  Lemma reachable_core : 0 <= c_max c <= 10000 -> (forall e0, init c = Done e0 -> P (ex_acc e0) (ex_pos e0)) ->
    forall e, reachable c e -> P (ex_acc e) (ex_pos e).
  Proof.
    intros Hm H0 e (ops & outs & H). revert ops e outs H.
    apply (history_ind c (fun e _ _ => P (ex_acc e) (ex_pos e))); [exact H0|].
    intros e ops outs o e' r Hh HP Hs. eapply step_core; [|exact Hs | exact HP]. apply (history_inv c ops e outs Hm Hh).
  Qed.
End Core.
