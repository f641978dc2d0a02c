(** A stronger invariant: the books balance, the reserved order margin is never negative and is zero
    without resting orders, and in debug builds there is no position margin without a position. *)
From Coq Require Import Permutation.
From Verif Require Import ProofBase BookLemmas StepLemmas FillLemmas OpLemmas Inv Spec SpecMargin SpecConfig
  MarginProof FilterProof OrderProof.

Record Sound (c : config) (e : exchange) : Prop := {
  so_inv : Inv c e;
  so_sums : debit_sum (ex_acc e) = credit_sum (ex_acc e);
  so_om : 0 <= bal (ex_acc e) ORDER_MARGIN;
  so_empty : ex_active e = [] -> bal (ex_acc e) ORDER_MARGIN = 0;
  so_flat : c_dbg c = true -> ex_pos e = Neutral -> bal (ex_acc e) POSITION_MARGIN = 0
}.

Lemma inv_good c e : Inv c e -> good_book (ex_active e).
Proof. intros H o Ho. destruct (inv_ok _ _ H o Ho) as (H1 & H2 & _). auto. Qed.

Lemma om_eq c b pos : valid_config c -> good_book b -> pos_ok pos -> order_margin c b pos = Done (req c b pos).
Proof. intros V Hb Hp. apply order_margin_internal_eq; auto. intros _. apply (vc_imr _ V). Qed.

Lemma req_ge0 c b pos : valid_config c -> good_book b -> 0 <= req c b pos.
Proof. intros V Hb. apply req_nonneg; [apply (vc_scale _ V) | apply (vc_imr _ V) | assumption]. Qed.

Lemma req_nil c pos : req c [] pos = 0.
Proof. unfold req, requirement. cbn. reflexivity. Qed.

Lemma good_nil : good_book [].
Proof. intros o []. Qed.

Lemma good_cons_perm b x b' : Permutation b (x :: b') -> good_book b -> good_book b'.
Proof.
  intros Hp Hb o Ho. apply Hb. eapply Permutation_in; [apply Permutation_sym; eassumption | right; assumption].
Qed.

(** Position margin *)
Lemma cp_flat c acc q p sd f pos pos' acc' :
  cp_case c acc q p sd f pos pos' acc' ->
  (c_dbg c = true -> pos = Neutral -> bal acc POSITION_MARGIN = 0) ->
  c_dbg c = true -> pos' = Neutral -> bal acc' POSITION_MARGIN = 0.
Proof.
  destruct 1; intros Hf Hd Hn; try (destruct sd; discriminate).
  rewrite bal_settle. match goal with H : c_dbg c = true -> bal acc POSITION_MARGIN = _ |- _ => specialize (H Hd) end. lia.
Qed.

Lemma market_effect_sound c e e' o : Sound c e -> market_effect c e e' o -> Sound c e'.
Proof.
  intros S M. destruct S. constructor.
  - eapply market_effect_inv; eassumption.
  - eapply tpath_sums; [eapply market_effect_tpath; eassumption | assumption].
  - rewrite (cp_om _ _ _ _ _ _ _ _ _ (me_cp _ _ _ _ M)). assumption.
  - rewrite (me_active _ _ _ _ M), (cp_om _ _ _ _ _ _ _ _ _ (me_cp _ _ _ _ M)). assumption.
  - eapply cp_flat; [apply (me_cp _ _ _ _ M) | assumption].
Qed.

(** The tracked book inside the fill loop. *)
Definition todo_in (b todo : list limit_order) : Prop := NoDup (ids b) /\ NoDup (ids todo) /\ incl todo b.

Lemma good_update cap b o b' :
  good_book b -> 0 < lo_price o -> om_update cap b o = Done (b', Ok tt) -> good_book b'.
Proof.
  intros Hb Hp Hu. apply om_update_done in Hu as [Hr [(_ & -> & _)|(old & _ & -> & _)]].
  - intros x Hx. apply in_app_or in Hx as [Hx|[<-|[]]]; auto.
  - intros x Hx. assert (x = o \/ In x b) as [->|Hx'].
    { clear - Hx. induction b as [|y t IH]; cbn in Hx; [contradiction|].
      destruct (lo_id y =? lo_id o); destruct Hx as [<-|Hx]; cbn; auto. destruct (IH Hx); auto. }
    + auto.
    + auto.
Qed.

Lemma good_remove b by_ b' : good_book b -> om_remove b by_ = Done b' -> good_book b'.
Proof.
  intros Hb Hr. unfold om_remove in Hr.
  change (match remove_with b by_ with Some (_, b0) => Done b0 | None => Panic POmRemove end = Done b') in Hr.
  destruct (remove_with b by_) as [[x b0]|] eqn:E; [|discriminate]. injection Hr as <-.
  apply remove_with_spec in E as (_ & _ & Hp). eapply good_cons_perm; eassumption.
Qed.

Lemma fe_good c u e e' o q : good_book (ex_om e) -> 0 < lo_price o -> fill_effect c u e e' o q -> good_book (ex_om e').
Proof.
  intros Hb Hp F. pose proof (fe_om _ _ _ _ _ _ F) as H. destruct (q =? lo_rem o).
  - eapply good_remove; eassumption.
  - eapply good_update; [| |eassumption]; [assumption | cbn; assumption].
Qed.

Lemma fe_pos_ok c u e e' o q : pos_ok (ex_pos e) -> fill_effect c u e e' o q -> pos_ok (ex_pos e').
Proof.
  intros Hp F. destruct (fe_acc _ _ _ _ _ _ F) as (a1 & n & Hcp & _). eapply cp_pos_ok; eassumption.
Qed.

(** The order margin after a fill. *)
Lemma fe_om_bal c u e e' o q :
  valid_config c -> good_book (ex_om e) -> 0 < lo_price o -> pos_ok (ex_pos e) -> fill_effect c u e e' o q ->
  bal (ex_acc e') ORDER_MARGIN = Z.min (bal (ex_acc e) ORDER_MARGIN) (req c (ex_om e') (ex_pos e')).
Proof.
  intros V Hb Hp Hpos F. pose proof (fe_good _ _ _ _ _ _ Hb Hp F) as Hb'. pose proof (fe_pos_ok _ _ _ _ _ _ Hpos F) as Hpos'.
  destruct (fe_acc _ _ _ _ _ _ F) as (a1 & n & Hcp & Hom & _ & ->).
  rewrite om_eq in Hom by assumption. injection Hom as <-.
  rewrite <- (cp_om _ _ _ _ _ _ _ _ _ Hcp).
  destruct (Z.ltb_spec (req c (ex_om e') (ex_pos e')) (bal a1 ORDER_MARGIN)).
  - rewrite bal_transfer by discriminate. unfold delta; cbn. lia.
  - lia.
Qed.

Record Mid (c : config) (e : exchange) : Prop := {
  mi_good : good_book (ex_om e);
  mi_nodup : NoDup (ids (ex_om e));
  mi_pos : pos_ok (ex_pos e);
  mi_sums : debit_sum (ex_acc e) = credit_sum (ex_acc e);
  mi_om : 0 <= bal (ex_acc e) ORDER_MARGIN;
  mi_empty : ex_om e = [] -> bal (ex_acc e) ORDER_MARGIN = 0;
  mi_flat : c_dbg c = true -> ex_pos e = Neutral -> bal (ex_acc e) POSITION_MARGIN = 0
}.

Lemma fe_nodup c u e e' o q :
  NoDup (ids (ex_om e)) -> In o (ex_om e) -> fill_effect c u e e' o q ->
  NoDup (ids (ex_om e')) /\ (forall x, lo_id x <> lo_id o -> In x (ex_om e) -> In x (ex_om e')).
Proof.
  intros Hn Ho F. pose proof (fe_om _ _ _ _ _ _ F) as H. destruct (q =? lo_rem o).
  - apply om_remove_id_done in H as [x H]. destruct (remove_id_ids _ _ _ _ Hn H) as (H1 & _ & H2).
    split; [assumption|]. intros y Hy Hin. apply H2. auto.
  - apply om_update_done in H as [_ [(Hg & _)|(old & Hg & -> & _)]].
    + exfalso. apply get_by_id_none in Hg. apply Hg. cbn. apply in_map; assumption.
    + rewrite replace_by_id_map by assumption. split; [rewrite ids_upd; auto|].
      intros y Hy Hin. apply in_map_iff. exists y. split; [|assumption]. unfold upd. cbn.
      destruct (Z.eqb_spec (lo_id y) (lo_id o)); [contradiction|reflexivity].
Qed.

Lemma fe_mid c u e e' o q :
  valid_config c -> Mid c e -> In o (ex_om e) -> fill_effect c u e e' o q -> Mid c e'.
Proof.
  intros V M Ho F. destruct M. assert (Hp : 0 < lo_price o) by (apply mi_good0; assumption).
  pose proof (fe_om_bal _ _ _ _ _ _ V mi_good0 Hp mi_pos0 F) as Hbal.
  pose proof (fe_good _ _ _ _ _ _ mi_good0 Hp F) as Hg'.
  constructor.
  - assumption.
  - apply (fe_nodup _ _ _ _ _ _ mi_nodup0 Ho F).
  - eapply fe_pos_ok; eassumption.
  - eapply tpath_sums; [eapply fe_tpath; eassumption | assumption].
  - pose proof (req_ge0 c _ (ex_pos e') V Hg'). lia.
  - intros E. rewrite Hbal, E, req_nil. lia.
  - destruct (fe_acc _ _ _ _ _ _ F) as (a1 & n & Hcp & _ & _ & Hacc).
    intros Hd Hn. pose proof (cp_flat _ _ _ _ _ _ _ _ _ Hcp mi_flat0 Hd Hn) as H.
    rewrite Hacc. destruct (n <? bal (ex_acc e) ORDER_MARGIN); [|assumption].
    rewrite bal_transfer by discriminate. unfold delta; cbn. lia.
Qed.

Lemma fills_mid c u e todo e' :
  valid_config c -> fills c u e todo e' -> Mid c e -> todo_in (ex_om e) todo -> Mid c e'.
Proof.
  intros V. induction 1 as [|e o l e' Hn Hl IH|e o q e1 l e' Hq He Hl IH]; intros M T; auto.
  - apply IH; [assumption|]. destruct T as (T1 & T2 & T3). split; [assumption|]. inversion T2; subst.
    split; [assumption|]. intros x Hx; apply T3; right; assumption.
  - destruct T as (T1 & T2 & T3). assert (Ho : In o (ex_om e)) by (apply T3; left; reflexivity).
    destruct (fe_nodup _ _ _ _ _ _ T1 Ho He) as [Hn Hk]. inversion T2; subst.
    apply IH; [eapply fe_mid; eassumption|]. split; [assumption|]. split; [assumption|].
    intros x Hx. apply Hk; [|apply T3; right; assumption].
    intros E. apply H1. rewrite <- E. apply in_map; assumption.
Qed.

Lemma sound_mid c e : Sound c e -> Mid c e.
Proof.
  intros S. pose proof (so_inv _ _ S) as I. pose proof (inv_books _ _ I) as B. destruct S.
  constructor; rewrite ?B; auto; [eapply inv_good; eassumption | apply (inv_nodup _ _ I) | apply (inv_pos _ _ I)].
Qed.

Lemma inv_todo c e : Inv c e -> todo_in (ex_om e) (ex_active e).
Proof.
  intros I. rewrite (inv_books _ _ I). split; [apply (inv_nodup _ _ I)|]. split; [apply (inv_nodup _ _ I)|].
  intros x Hx; exact Hx.
Qed.

Lemma check_active_sound c e u e' :
  valid_config c -> Sound c e -> check_active_orders c e u = Done e' -> Sound c e'.
Proof.
  intros V S H. pose proof (check_active_inv _ _ _ _ (so_inv _ _ S) H) as I'.
  apply check_active_spec in H as [(_ & ->)|(_ & e1 & act & _ & _ & Hf & _ & -> & _)].
  - destruct S. constructor; cbn; auto.
  - assert (M : Mid c e1).
    { eapply fills_mid; [assumption | eassumption | |].
      - pose proof (sound_mid _ _ S) as M. destruct M. constructor; cbn; auto.
      - cbn. apply (inv_todo c e), (so_inv _ _ S). }
    destruct M. pose proof (inv_books _ _ I') as B. cbn in B. constructor; cbn; auto.
    intros E. apply mi_empty0. rewrite B. exact E.
Qed.

Lemma pre_check_sound c e u : Sound c e -> Sound c (pre_check c e u).
Proof.
  intros S. destruct (pre_check_fields c e u) as (E1 & E2 & E3 & _). destruct S.
  constructor; rewrite ?E1, ?E2, ?E3; auto. apply pre_check_inv; assumption.
Qed.

Lemma liquidate_sound c e e' : Sound c e -> liquidate c e = Done e' -> Sound c e'.
Proof. intros S H. apply liquidate_spec in H as (o & M & _). eapply market_effect_sound; eassumption. Qed.

Lemma update_state_sound c e u e' r :
  valid_config c -> Sound c e -> update_state c e u = Done (e', r) -> Sound c e'.
Proof.
  intros V S H. apply update_state_spec in H as [_ H]. cbv zeta in H.
  pose proof (pre_check_sound c e u S) as S0.
  destruct (check_maintenance_margin _ _ _ _); destruct H as [_ H].
  - eapply check_active_sound; eassumption.
  - eapply liquidate_sound; eassumption.
Qed.

Lemma same_core_sound c e e' :
  Sound c e -> same_core e e' -> ex_next_id e <= ex_next_id e' -> Sound c e'.
Proof.
  intros S C N. pose proof (same_core_inv _ _ _ (so_inv _ _ S) C N) as I.
  destruct C as (_ & E1 & E2 & E3 & _). destruct S. constructor; rewrite ?E1, ?E2, ?E3; auto.
Qed.

Lemma append_sound c e o e' :
  valid_config c -> Sound c e -> ex_active e' <> [] -> Inv c e' -> append_effect c e e' o -> Sound c e'.
Proof.
  intros V S Hne I A. destruct S. pose proof (ae_acc _ _ _ _ A) as (n & Hom & Hacc).
  constructor.
  - assumption.
  - destruct Hacc as [[_ ->]|(_ & -> & _)]; [assumption|].
    destruct (transfer_sums (ex_acc e) ORDER_MARGIN WALLET (Z.abs (n - bal (ex_acc e) ORDER_MARGIN)) ltac:(discriminate)) as [-> ->]. lia.
  - destruct Hacc as [[_ ->]|(_ & -> & _)]; [assumption|].
    rewrite bal_transfer by discriminate. unfold delta; cbn. lia.
  - intros E; contradiction.
  - rewrite (ae_pos _ _ _ _ A). destruct Hacc as [[_ ->]|(_ & -> & _)]; [assumption|].
    rewrite bal_transfer by discriminate. unfold delta; cbn. intros Hd Hp. rewrite so_flat0 by assumption. reflexivity.
Qed.

Lemma trk_next_sound c e t : Sound c e -> Sound c (trk_next e t (ex_next_id e + 1)).
Proof. intros S. pose proof (trk_next_inv c e t (so_inv _ _ S)). destruct S. constructor; cbn; auto. Qed.

Lemma submit_limit_sound c e o e' r :
  valid_config c -> Sound c e -> nl_ok o -> submit_limit_order c e o = Done (e', r) -> Sound c e'.
Proof.
  intros V S N H. pose proof (submit_limit_book _ _ _ _ _ (proj2 (vc_max _ V)) (so_inv _ _ S) N H) as [I' Hb].
  apply submit_limit_spec in H. cbv zeta in H. destruct Hb as [(err & -> & C & Hn)|(-> & Ha & _)].
  - eapply same_core_sound; [eassumption | eassumption | lia].
  - destruct H as [(err & E & _)|(_ & _ & _ & _ & a & Happ & E)]; [discriminate|].
    destruct a as [|err]; [|discriminate]. apply append_spec in Happ.
    eapply append_sound; [assumption | apply trk_next_sound; eassumption | | assumption | eassumption].
    rewrite Ha. destruct (ex_active e); discriminate.
Qed.

Lemma cancel_effect_bal c e e' b o :
  valid_config c -> Sound c e -> cancel_effect c e e' b o ->
  bal (ex_acc e') ORDER_MARGIN = req c (ex_active e') (ex_pos e') /\
  order_margin c (ex_om e') (ex_pos e') = Done (bal (ex_acc e') ORDER_MARGIN).
Proof.
  intros V S C. pose proof (cancel_effect_inv _ _ _ _ _ (so_inv _ _ S) C) as I'.
  destruct (ce_acc _ _ _ _ _ C) as (n & Hom & Hle & Hacc). rewrite <- (ce_pos _ _ _ _ _ C) in Hom.
  assert (Hn : bal (ex_acc e') ORDER_MARGIN = n).
  { rewrite Hacc. destruct (Z.ltb_spec n (bal (ex_acc e) ORDER_MARGIN)).
    - rewrite bal_transfer by discriminate. unfold delta; cbn. lia.
    - lia. }
  rewrite Hn. split; [|assumption]. rewrite (inv_books _ _ I') in Hom.
  rewrite om_eq in Hom; [congruence | assumption | eapply inv_good; eassumption | apply (inv_pos _ _ I')].
Qed.

Lemma cancel_effect_sound c e e' b o : valid_config c -> Sound c e -> cancel_effect c e e' b o -> Sound c e'.
Proof.
  intros V S C. pose proof (cancel_effect_inv _ _ _ _ _ (so_inv _ _ S) C) as I'.
  destruct (cancel_effect_bal _ _ _ _ _ V S C) as [Hb _].
  pose proof (cancel_effect_tpath _ _ _ _ _ C) as T. destruct (ce_acc _ _ _ _ _ C) as (n & _ & _ & Hacc).
  destruct S. constructor.
  - assumption.
  - eapply tpath_sums; eassumption.
  - rewrite Hb. apply req_ge0; [assumption | eapply inv_good; eassumption].
  - intros E. rewrite Hb, E. apply req_nil.
  - rewrite (ce_pos _ _ _ _ _ C), Hacc. intros Hd Hp. rewrite <- (so_flat0 Hd Hp).
    destruct (n <? bal (ex_acc e) ORDER_MARGIN); [|reflexivity].
    rewrite bal_transfer by discriminate. unfold delta; cbn. lia.
Qed.

Lemma amend_sound c e id o e' r :
  valid_config c -> Sound c e -> nl_ok o -> amend_limit_order c e id o = Done (e', r) -> Sound c e'.
Proof.
  intros V S N H. apply amend_spec in H. destruct (get_by_id (ex_active e) id) as [x|].
  2:{ destruct H as [-> _]; assumption. }
  cbv zeta in H. destruct H as [_ H].
  destruct (Z.leb_spec (lo_rem x + (nl_rem o - (lo_rem x + lo_filled_qty x))) 0).
  - destruct H as [[y C] _]. eapply cancel_effect_sound; eassumption.
  - destruct H as (e1 & y & C & H). eapply submit_limit_sound; [assumption | | | eassumption].
    + eapply cancel_effect_sound; eassumption.
    + split; [apply N | cbn; assumption].
Qed.

Lemma step_sound c e o e' r : valid_config c -> Sound c e -> step c e o = Done (e', r) -> Sound c e'.
Proof.
  intros V S H. destruct o; cbn [step] in H.
  - apply bind_done in H as (u & _ & H). apply map_out_done in H as (rr & H & _).
    eapply update_state_sound; eassumption.
  - destruct (market_new sd qty uid) as [m|]; [|inv; assumption].
    apply map_out_done in H as (rr & H & _). apply submit_market_spec in H. destruct rr.
    + destruct H as [_ M]. eapply market_effect_sound; eassumption.
    + destruct H as (C & _ & Hn). eapply same_core_sound; [eassumption | eassumption |].
      destruct Hn as [(? & _ & _ & ->)|(? & _ & -> & _)]; lia.
  - destruct (limit_new sd price qty uid) as [l|] eqn:E; [|inv; assumption].
    apply map_out_done in H as (rr & H & _). apply limit_new_ok in E as [N _].
    eapply submit_limit_sound; eassumption.
  - apply map_out_done in H as (rr & H & _). apply cancel_spec in H as [_ H]. destruct rr.
    + eapply cancel_effect_sound; eassumption.
    + destruct H as [-> _]; assumption.
  - destruct (limit_new sd price qty uid) as [l|] eqn:E; [|inv; assumption].
    apply map_out_done in H as (rr & H & _). apply limit_new_ok in E as [N _].
    eapply amend_sound; eassumption.
  - apply bind_done in H as (u & _ & H). apply bind_done in H as (e1 & H & H1). inv.
    eapply check_active_sound; eassumption.
Qed.

Lemma init_sound c e0 : valid_config c -> init c = Done e0 -> Sound c e0.
Proof.
  intros V H. pose proof (init_inv _ _ (proj1 (vc_max _ V)) H) as I.
  apply init_fields in H as (_ & _ & _ & _ & _ & _ & _ & _ & _ & Hacc).
  constructor; rewrite ?Hacc; try (intros; reflexivity); try (unfold bal; cbn; lia); auto.
  unfold debit_sum, credit_sum. cbn. lia.
Qed.

Lemma reachable_sound c e : valid_config c -> reachable c e -> Sound c e.
Proof.
  intros V (ops & outs & H). revert ops e outs H.
  apply (history_ind c (fun e _ _ => Sound c e)).
  - intros; apply init_sound; assumption.
  - intros. eapply step_sound; eassumption.
Qed.
