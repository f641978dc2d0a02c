(** Induction over fills and margin moves, together with the list of reported fills. *)
From Coq Require Import Permutation.
From Verif Require Import ProofBase BookLemmas StepLemmas FillLemmas OpLemmas Inv Spec BookProof OrderProof LedgerProof FeeProof CoreProof.

Definition flow_fill (c : config) (P : accounts -> position -> list fill -> Prop) : Prop :=
  forall acc q p sd rate pos pos' acc' fs, 0 < q -> 0 < p -> rate = ct_maker (c_spec c) \/ rate = ct_taker (c_spec c) ->
  pos_ok pos -> cp_case c acc q p sd (fee_of c q p rate) pos pos' acc' -> P acc pos fs ->
  P acc' pos' (fs ++ [{| f_side := sd; f_qty := q; f_price := p; f_rate := rate |}]).
Definition flow_move (P : accounts -> position -> list fill -> Prop) : Prop :=
  forall acc pos fs n, 0 < n -> P acc pos fs ->
  P (transfer_pure acc ORDER_MARGIN WALLET n) pos fs /\ P (transfer_pure acc WALLET ORDER_MARGIN n) pos fs.

Section Flow.
  Variable c : config.
  Variable P : accounts -> position -> list fill -> Prop.
  Hypothesis HF : flow_fill c P.
  Hypothesis HM : flow_move P.

  Lemma flow_fills u l e e' w :
    fills c u e l e' -> NoDup (ids l) -> (forall o, In o l -> order_ok o) -> pos_ok (ex_pos e) ->
    (forall o, In o l -> w_seen w (lo_id o) = lo_filled_qty o) ->
    P (ex_acc e) (ex_pos e) (w_fills w) ->
    P (ex_acc e') (ex_pos e') (w_fills (fold_left (watch_update c) (flat_map (event c u) l) w)).
  Proof.
    intros H. revert w. induction H as [e|e o l e' Hq Hl IH|e o q e1 l e' Hq He Hl IH]; intros w Hn Hok Hp Hs HP.
    - exact HP.
    - cbn [flat_map]. rewrite (event_eq c u o), Hq. cbn [app]. inversion Hn; subst.
      apply IH; try assumption; intros; (apply Hok || apply Hs); right; assumption.
    - cbn [flat_map]. rewrite (event_eq c u o), Hq. cbn [app fold_left]. inversion Hn as [|? ? Hno Hnl]; subst.
      destruct (watch_event c w (c_scale c) o q (update_ts u) (Hs o (or_introl eq_refl))) as [Hf1 Hs1].
      destruct (fe_acc _ _ _ _ _ _ He) as (acc1 & n & Hcp & _ & _ & Ha).
      apply IH.
      + assumption.
      + intros x Hx; apply Hok; right; exact Hx.
      + eapply cp_pos_ok; eassumption.
      + intros x Hx. rewrite Hs1. destruct (Z.eqb_spec (lo_id x) (lo_id o)) as [E|_].
        * exfalso. apply Hno. rewrite <- E. apply in_map; exact Hx.
        * apply Hs. right; exact Hx.
      + rewrite Hf1, Ha. unfold fill_of.
        assert (H1 : P acc1 (ex_pos e1) (w_fills w ++ [{| f_side := lo_side o; f_qty := q; f_price := lo_price o; f_rate := ct_maker (c_spec c) |}])).
        { eapply HF; [| | | exact Hp | exact Hcp | exact HP]; [apply (fe_q _ _ _ _ _ _ He) | | left; reflexivity].
          destruct (Hok o (or_introl eq_refl)) as (_ & Hx & _). exact Hx. }
        match goal with |- P (if ?b then _ else _) _ _ => destruct b eqn:E end; [|exact H1]. apply HM; [lia | exact H1].
  Qed.

  Lemma flow_market e e' o fs :
    pos_ok (ex_pos e) -> market_effect c e e' o -> P (ex_acc e) (ex_pos e) fs ->
    P (ex_acc e') (ex_pos e') (fs ++ [{| f_side := nm_side o; f_qty := nm_qty o;
      f_price := quote_price (ex_ms e) (nm_side o); f_rate := ct_taker (c_spec c) |}]).
  Proof.
    intros Hp M H. eapply HF; [apply (me_qty _ _ _ _ M) | apply (me_price _ _ _ _ M) | right; reflexivity | exact Hp | apply (me_cp _ _ _ _ M) | exact H].
  Qed.

  Lemma flow_still fs : core_move (fun acc pos => P acc pos fs).
  Proof. intros acc pos n Hn H. apply HM; assumption. Qed.

  Lemma step_flow e o e' r w :
    c_max c <= 10000 -> is_check o = false -> Inv c e -> WInv c e w -> step c e o = Done (e', r) ->
    P (ex_acc e) (ex_pos e) (w_fills w) -> P (ex_acc e') (ex_pos e') (w_fills (watch_call c w (o, r))).
  Proof.
    intros Hm Hck I HW H HP. pose proof (flow_still (w_fills w)) as HM'.
    destruct o as [ru|sd q uid|sd p q uid|b|id sd p q uid|ru]; cbn [step] in H.
    - apply bind_done in H as [u [Hu H]]. apply map_out_done in H as (r0 & H & ->).
      apply update_state_spec in H as [_ H]. cbv zeta in H.
      pose proof (pre_check_winv _ _ _ _ _ _ HW Hu) as HW1.
      pose proof (pre_check_inv c e u I) as I0. destruct (pre_check_fields c e u) as (E1 & E2 & _).
      assert (HP1 : P (ex_acc (pre_check c e u)) (ex_pos (pre_check c e u)) (w_fills (watch_quote w ru)))
        by (rewrite E1, E2; unfold watch_quote; destruct (quote_of ru) as [[? ?]|]; exact HP).
      destruct (check_maintenance_margin _ _ _ _) as [[]|re] eqn:Ec.
      + destruct H as [-> H]. cbn [map_result watch_call].
        apply check_active_spec in H as [(_ & ->) | (_ & e1 & act & _ & _ & Hf & Hr & -> & _)].
        * exact HP1.
        * destruct (fills_stable _ _ _ _ _ Hf) as (_ & _ & _ & _ & Hupd).
          cbn [set_updates ex_updates app] in Hupd. cbn [set_active ex_updates ex_acc ex_pos]. rewrite Hupd.
          apply (flow_fills _ _ _ _ _ Hf); [apply (inv_nodup _ _ I0) | apply (inv_ok _ _ I0) | apply (inv_pos _ _ I0) | apply (wi_seen _ _ _ HW1) | exact HP1].
      + destruct H as [-> H]. apply maintenance_err in Ec; subst re. cbn [map_result watch_call].
        apply liquidate_spec in H as (lo & Hme & _ & Hlo).
        rewrite (liquidation_fill_eq _ _ _ _ _ I0 HW1 Hme Hlo). cbn [watch_add w_fills]. eapply flow_market; [apply (inv_pos _ _ I0) | exact Hme | exact HP1].
    - destruct (market_new sd q uid) eqn:Em; [|inv; exact HP].
      apply map_out_done in H as (r0 & H & ->). apply submit_market_spec in H. destruct r0 as [f|err].
      + destruct H as [-> H]. cbn [map_result watch_call market_into_filled fm_side fm_filled fm_avg watch_add w_fills].
        eapply flow_market; [apply (inv_pos _ _ I) | exact H | exact HP].
      + destruct H as ((_ & -> & -> & _) & _). exact HP.
    - assert (E : w_fills (watch_call c w (OpLimit sd p q uid, r)) = w_fills w) by (cbn [watch_call]; destruct r as [[]|]; reflexivity). rewrite E.
      destruct (limit_new sd p q uid); [|inv; exact HP]. apply map_out_done in H as (rr & H & _).
      exact (core_limit c (fun acc pos => P acc pos (w_fills w)) HM' _ _ _ _ H HP).
    - assert (E : w_fills (watch_call c w (OpCancel b, r)) = w_fills w) by (cbn [watch_call]; destruct r as [[]|]; reflexivity). rewrite E.
      apply map_out_done in H as (rr & H & _). apply cancel_spec in H as [_ H]. destruct rr.
      + exact (core_cancel c (fun acc pos => P acc pos (w_fills w)) HM' _ _ _ _ H HP).
      + destruct H as (-> & _). exact HP.
    - assert (E : w_fills (watch_call c w (OpAmend id sd p q uid, r)) = w_fills w) by (cbn [watch_call]; destruct r as [[]|]; reflexivity). rewrite E.
      destruct (limit_new sd p q uid); [|inv; exact HP]. apply map_out_done in H as (rr & H & _). apply amend_spec in H.
      destruct (get_by_id (ex_active e) id); [|destruct H as [-> _]; exact HP]. destruct H as [_ H].
      destruct (_ <=? 0).
      + destruct H as [[x H] _]. exact (core_cancel c (fun acc pos => P acc pos (w_fills w)) HM' _ _ _ _ H HP).
      + destruct H as (e1 & x & Hc & H). apply (core_limit c (fun acc pos => P acc pos (w_fills w)) HM' _ _ _ _ H).
        exact (core_cancel c (fun acc pos => P acc pos (w_fills w)) HM' _ _ _ _ Hc HP).
    - discriminate.
  Qed.

  Lemma history_flow ops e outs :
    0 <= c_max c <= 10000 -> (forall e0, init c = Done e0 -> P (ex_acc e0) (ex_pos e0) []) ->
    no_check ops -> history c ops e outs -> P (ex_acc e) (ex_pos e) (reported_fills c ops outs).
  Proof.
    intros Hm H0 Hck (e0 & Hi & Hr).
    refine (run_watch_ind c (fun e w => P (ex_acc e) (ex_pos e) (w_fills w)) _ _ ops e0 e outs watch_start Hck _ _ Hr _).
    - lia.
    - intros. eapply step_flow; try eassumption. lia.
    - apply init_inv; [lia | assumption].
    - apply init_winv; assumption.
    - apply H0; assumption.
  Qed.
End Flow.
