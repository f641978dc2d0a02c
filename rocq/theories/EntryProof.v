(** Order entry: what submit, cancel and amend change. *)
From Coq Require Import Permutation.
From Verif Require Import ProofBase BookLemmas StepLemmas FillLemmas OpLemmas Inv Spec LedgerProof.

(** ** Balances *)
Definition om_move (a b : accounts) : Prop :=
  bal b WALLET + bal b ORDER_MARGIN = bal a WALLET + bal a ORDER_MARGIN /\
  forall id, id <> WALLET -> id <> ORDER_MARGIN -> get_account b id = get_account a id.

Lemma om_move_refl a : om_move a a.
Proof. split; auto. Qed.
Lemma om_move_trans a b d : om_move a b -> om_move b d -> om_move a d.
Proof. intros [H1 H2] [H3 H4]. split; [lia|]. intros. rewrite H4, H2; auto. Qed.
Lemma om_move_transfer a d c amt :
  (d = WALLET /\ c = ORDER_MARGIN) \/ (d = ORDER_MARGIN /\ c = WALLET) -> om_move a (transfer_pure a d c amt).
Proof.
  intros H. split.
  - destruct H as [[-> ->]|[-> ->]]; rewrite !bal_transfer by discriminate; unfold delta; cbn; lia.
  - intros id H1 H2. destruct a, id; try contradiction; destruct H as [[-> ->]|[-> ->]]; reflexivity.
Qed.

Lemma append_move c e e' o : append_effect c e e' o -> om_move (ex_acc e) (ex_acc e').
Proof.
  intros H. destruct (ae_acc _ _ _ _ H) as (n & _ & [(_ & ->)|(_ & -> & _)]); [apply om_move_refl|].
  apply om_move_transfer. auto.
Qed.

Lemma submit_limit_move c e o e' r :
  submit_limit_order c e o = Done (e', r) ->
  om_move (ex_acc e) (ex_acc e') /\ ex_pos e' = ex_pos e /\ ex_ms e' = ex_ms e.
Proof.
  intros H. apply submit_limit_spec in H as [(err & _ & Hs & _) | (_ & _ & _ & _ & a & Ha & _)].
  - destruct Hs as (-> & -> & -> & _). split; [apply om_move_refl | auto].
  - apply append_spec in Ha. destruct a as [[]|].
    + split; [apply append_move in Ha; exact Ha|]. rewrite (ae_pos _ _ _ _ Ha), (ae_ms _ _ _ _ Ha). auto.
    + destruct Ha as (_ & [(-> & _) | (om' & r' & _ & -> & _)]); (split; [apply om_move_refl | auto]).
Qed.

Lemma cancel_effect_move c e e' b o : cancel_effect c e e' b o -> om_move (ex_acc e) (ex_acc e').
Proof.
  intros H. destruct (ce_acc _ _ _ _ _ H) as (n & _ & _ & ->).
  destruct (n <? bal (ex_acc e) ORDER_MARGIN); [|apply om_move_refl]. apply om_move_transfer; auto.
Qed.

Lemma cancel_move c e b e' r :
  cancel_limit_order c e b = Done (e', r) ->
  om_move (ex_acc e) (ex_acc e') /\ ex_pos e' = ex_pos e /\ ex_ms e' = ex_ms e.
Proof.
  intros H. apply cancel_spec in H as [_ H]. destruct r.
  - split; [eapply cancel_effect_move; eassumption|].
    rewrite (ce_pos _ _ _ _ _ H), (ce_ms _ _ _ _ _ H). auto.
  - destruct H as [-> _]. split; [apply om_move_refl | auto].
Qed.

Lemma amend_move c e id o e' r :
  amend_limit_order c e id o = Done (e', r) ->
  om_move (ex_acc e) (ex_acc e') /\ ex_pos e' = ex_pos e /\ ex_ms e' = ex_ms e.
Proof.
  intros H. apply amend_spec in H. destruct (get_by_id (ex_active e) id) as [ex|].
  - destruct H as [_ H]. destruct (_ <=? 0).
    + destruct H as [[x Hx] _]. split; [eapply cancel_effect_move; eassumption|].
      rewrite (ce_pos _ _ _ _ _ Hx), (ce_ms _ _ _ _ _ Hx). auto.
    + destruct H as (e1 & x & Hx & Hs). pose proof (cancel_effect_move _ _ _ _ _ Hx) as Hm.
      apply submit_limit_move in Hs as (Hm2 & -> & ->).
      split; [eapply om_move_trans; eassumption|]. rewrite (ce_pos _ _ _ _ _ Hx), (ce_ms _ _ _ _ _ Hx). auto.
  - destruct H as [-> _]. split; [apply om_move_refl | auto].
Qed.

Definition is_entry (o : op) : bool :=
  match o with OpLimit _ _ _ _ | OpCancel _ | OpAmend _ _ _ _ _ => true | _ => false end.

Lemma entry_move c e o e' r :
  is_entry o = true -> step c e o = Done (e', r) ->
  om_move (ex_acc e) (ex_acc e') /\ ex_pos e' = ex_pos e /\ ex_ms e' = ex_ms e.
Proof.
  destruct o as [ru|sd q uid|sd p q uid|b|id sd p q uid|ru]; cbn [step is_entry]; intros E H; try discriminate.
  - destruct (limit_new sd p q uid); [|inv; split; [apply om_move_refl | auto]].
    apply map_out_done in H as (r0 & H & ->). eapply submit_limit_move; eassumption.
  - apply map_out_done in H as (r0 & H & ->). eapply cancel_move; eassumption.
  - destruct (limit_new sd p q uid); [|inv; split; [apply om_move_refl | auto]].
    apply map_out_done in H as (r0 & H & ->). eapply amend_move; eassumption.
Qed.

Lemma entry_totals c e o e' r :
  is_entry o = true -> step c e o = Done (e', r) ->
  wallet_of e' + order_margin_of e' = wallet_of e + order_margin_of e /\
  position_margin_of e' = position_margin_of e /\ fees_paid e' = fees_paid e /\ ex_pos e' = ex_pos e.
Proof.
  intros Ho H. destruct (entry_move _ _ _ _ _ Ho H) as ([Hs Hid] & Hp & _).
  split; [exact Hs|]. unfold position_margin_of, balances, fees_paid, margin_balance_of. cbn [ub_pm].
  rewrite !Hid by discriminate. auto.
Qed.

Lemma conservation c ops e outs :
  history c ops e outs ->
  total_debits e = total_credits e /\ sumZ (map (net_of e) all_accounts) = 0.
Proof.
  intros (e0 & Hi & Hr). pose proof (run_sums _ _ _ _ _ Hi Hr) as H.
  unfold total_debits, total_credits, net_of, all_accounts, sumZ, debit_sum, credit_sum in *. cbn in *. lia.
Qed.
