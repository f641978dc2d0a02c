(** Consequences of the panic analysis. *)
From Coq Require Import Permutation Sorted.
From Verif Require Import ProofBase BookLemmas StepLemmas FillLemmas OpLemmas Inv Spec SpecMargin SpecConfig SpecPanic
  MarginProof FilterProof EntryProof OrderProof BookProof SoundProof PanicProof.

Lemma never_book c e o w : valid_config c -> reachable c e -> In w book_sites -> step c e o <> Panic w.
Proof.
  intros V R Hw H. apply (reachable_step_safe _ _ _ _ V R) in H.
  destruct o; cbn in H, Hw; repeat (destruct H as [H|H]); try contradiction; subst w;
  repeat (destruct Hw as [Hw|Hw]); try discriminate; contradiction.
Qed.
Lemma never_other c e o w : valid_config c -> reachable c e -> In w other_sites -> step c e o <> Panic w.
Proof.
  intros V R Hw H. apply (reachable_step_safe _ _ _ _ V R) in H.
  destruct o; cbn in H, Hw; repeat (destruct H as [H|H]); try contradiction; subst w;
  repeat (destruct Hw as [Hw|Hw]); try discriminate; contradiction.
Qed.

Lemma sync_req c e : valid_config c -> Sound c e -> (in_sync c e <-> bal (ex_acc e) ORDER_MARGIN = req c (ex_active e) (ex_pos e)).
Proof.
  intros V S. unfold in_sync. rewrite om_eq; [|exact V | apply (inv_good _ _ (so_inv _ _ S)) | apply (inv_pos _ _ (so_inv _ _ S))].
  change (order_margin_of e) with (bal (ex_acc e) ORDER_MARGIN). split; [intros [= E]; auto | intros ->; reflexivity].
Qed.

Lemma empty_in_sync c e : valid_config c -> reachable c e -> ex_active e = [] -> in_sync c e.
Proof.
  intros V R E. pose proof (reachable_sound _ _ V R) as S. apply sync_req; [assumption | assumption|].
  rewrite E, req_nil. apply (so_empty _ _ S E).
Qed.
Lemma empty_no_margin c e : valid_config c -> reachable c e -> ex_active e = [] -> order_margin_of e = 0.
Proof. intros V R E. apply (so_empty _ _ (reachable_sound _ _ V R) E). Qed.
Lemma margin_nonneg c e : valid_config c -> reachable c e -> 0 <= order_margin_of e.
Proof. intros V R. apply (so_om _ _ (reachable_sound _ _ V R)). Qed.

Lemma safe_nil_done {A} (m : outcome A) : safe [] m -> exists a, m = Done a.
Proof. intros H. destruct m as [a|w]; [eauto|]. destruct (H w eq_refl). Qed.

Definition settled (c : config) (e : exchange) : Prop :=
  ex_pos e = Neutral \/ no_ties (ex_active e) \/
  exists g, exact_book (c_kind c) (c_scale c) g (position_quantity (ex_pos e)) (ex_active e).

Lemma pos_sized e : pos_ok (ex_pos e) -> sized (ex_pos e).
Proof. destruct (ex_pos e); auto. Qed.

Lemma cancel_sync_safe c e by_ :
  valid_config c -> Sound c e -> in_sync c e -> settled c e -> safe [] (cancel_limit_order c e by_).
Proof.
  intros V S Hs Ht. pose proof (so_inv _ _ S) as I. apply (sync_req _ _ V S) in Hs.
  apply cancel_safe_gen; [assumption | assumption | contradiction|].
  intros o act' Hp Hlt. exfalso. rewrite Hs in Hlt. apply remove_with_spec in Hp as (_ & _ & Hp).
  assert (Hc : exists g, ex_pos e = Neutral \/ no_ties (ex_active e) \/
     exact_book (c_kind c) (c_scale c) g (position_quantity (ex_pos e)) (ex_active e)).
  { destruct Ht as [H|[H|[g H]]]; [exists 0 | exists 0 | exists g]; auto. }
  destruct Hc as [g Hc].
  pose proof (req_remove c g (ex_active e) act' o (ex_pos e) (vc_scale _ V) (proj1 (vc_imr _ V)) (inv_good _ _ I)
    Hp Hc). lia.
Qed.

Lemma map_out_total {S E A B} (f : A -> B) (m : outcome (S * result E A)) :
  safe [] m -> exists e' r, map_out f m = Done (e', r).
Proof.
  intros H. apply (map_out_safe _ f) in H. apply safe_nil_done in H as [[e' r] H]. eauto.
Qed.

Lemma limit_total c e sd p q uid :
  valid_config c -> reachable c e -> in_sync c e -> exists e' r, step c e (OpLimit sd p q uid) = Done (e', r).
Proof.
  intros V R Hs. pose proof (reachable_sound _ _ V R) as S. cbn [step].
  destruct (limit_new sd p q uid) as [l|] eqn:E; [|eauto]. apply limit_new_ok in E as [N _].
  apply map_out_total. eapply safe_weaken; [apply submit_limit_safe; assumption|].
  apply (sync_req _ _ V S) in Hs. rewrite Hs, Z.eqb_refl. intros w Hw; exact Hw.
Qed.

Lemma entry_total c e o :
  valid_config c -> reachable c e -> in_sync c e ->
  (ex_pos e = Neutral \/ no_ties (ex_active e) \/
   exists g, exact_book (c_kind c) (c_scale c) g (position_quantity (ex_pos e)) (ex_active e)) ->
  limit_entry o -> exists e' r, step c e o = Done (e', r).
Proof.
  intros V R Hs Ht Ho. pose proof (reachable_sound _ _ V R) as S.
  destruct o as [| |sd p q uid|by_|id sd p q uid|]; try contradiction.
  - apply limit_total; assumption.
  - cbn [step]. apply map_out_total, cancel_sync_safe; assumption.
  - cbn [step]. destruct (limit_new sd p q uid) as [l|] eqn:E; [|eauto]. apply limit_new_ok in E as [N _].
    apply map_out_total, amend_safe_gen; try assumption. apply cancel_sync_safe; assumption.
Qed.

(** ** Staying in sync *)
Lemma append_sync c e e' o :
  valid_config c -> Sound c e -> 0 < lo_rem o -> 0 < lo_price o -> ~ In (lo_id o) (ids (ex_active e)) ->
  bal (ex_acc e) ORDER_MARGIN = req c (ex_active e) (ex_pos e) -> append_effect c e e' o ->
  bal (ex_acc e') ORDER_MARGIN = req c (ex_active e') (ex_pos e').
Proof.
  intros V S Hr Hp Hid Hs Ha. pose proof (so_inv _ _ S) as I. pose proof (inv_good _ _ I) as Hg.
  pose proof (ae_om _ _ _ _ Ha) as Hom. pose proof (ae_active _ _ _ _ Ha) as [r Hact].
  rewrite book_insert_new in Hact by assumption. destruct (_ <=? _); [discriminate|]. injection Hact as Hact _.
  rewrite (inv_books _ _ I) in Hom. unfold om_update in Hom. destruct (Z.ltb_spec 0 (lo_rem o)); [|lia]. cbn [assert bind] in Hom.
  rewrite book_insert_new in Hom by assumption. destruct (_ <=? _) in Hom; [discriminate|]. injection Hom as Hom.
  pose proof (good_snoc _ _ Hg Hr Hp) as Hg'.
  destruct (ae_acc _ _ _ _ Ha) as (n & Hn & Hacc). rewrite <- Hom in Hn.
  rewrite om_eq in Hn by (assumption || apply (inv_pos _ _ I)). injection Hn as <-.
  rewrite <- Hact, (ae_pos _ _ _ _ Ha). destruct Hacc as [(E & ->)|(E & -> & _)]; [symmetry; exact E|].
  rewrite bal_transfer by discriminate. unfold delta; cbn.
  pose proof (req_snoc c (ex_active e) o (ex_pos e) (vc_scale _ V) (proj1 (vc_imr _ V)) Hg'). lia.
Qed.

Lemma submit_limit_sync c e o e' r :
  valid_config c -> Sound c e -> nl_ok o -> bal (ex_acc e) ORDER_MARGIN = req c (ex_active e) (ex_pos e) ->
  submit_limit_order c e o = Done (e', r) -> bal (ex_acc e') ORDER_MARGIN = req c (ex_active e') (ex_pos e').
Proof.
  intros V S N Hs H. apply submit_limit_spec in H as [(err & _ & Hc & _) | (_ & _ & _ & _ & a & Ha & _)].
  - destruct Hc as (_ & -> & -> & -> & _). exact Hs.
  - set (t := log_limit_order_submission (ex_trk e)) in *.
    pose proof (trk_next_sound c e t S) as S1. pose proof (append_spec _ _ _ _ _ Ha) as Ha'. destruct a as [[]|].
    + refine (append_sync c _ e' _ V S1 _ _ _ Hs Ha'); [apply N | apply N | cbn; apply (inv_fresh _ _ (so_inv _ _ S))].
    + apply (append_err_same _ _ _ _ _ (proj2 (vc_max _ V)) (so_inv _ _ S1)) in Ha as (-> & _); [exact Hs | apply (inv_fresh _ _ (so_inv _ _ S))].
Qed.

Lemma entry_sync c e o e' r :
  valid_config c -> reachable c e -> limit_entry o -> in_sync c e -> step c e o = Done (e', r) -> in_sync c e'.
Proof.
  intros V R Ho Hs H. pose proof (reachable_sound _ _ V R) as S. pose proof (step_sound _ _ _ _ _ V S H) as S'.
  apply (sync_req _ _ V S'). apply (sync_req _ _ V S) in Hs.
  destruct o as [| |sd p q uid|by_|id sd p q uid|]; try contradiction; cbn [step] in H.
  - destruct (limit_new sd p q uid) as [l|] eqn:E; [|inv; exact Hs]. apply limit_new_ok in E as [N _].
    apply map_out_done in H as (rr & H & _). exact (submit_limit_sync _ _ _ _ _ V S N Hs H).
  - apply map_out_done in H as (rr & H & _). apply cancel_spec in H as [_ H]. destruct rr.
    + apply (cancel_effect_bal _ _ _ _ _ V S H).
    + destruct H as (-> & _). exact Hs.
  - destruct (limit_new sd p q uid) as [l|] eqn:E; [|inv; exact Hs]. apply limit_new_ok in E as [N _].
    apply map_out_done in H as (rr & H & _). apply amend_spec in H.
    destruct (get_by_id (ex_active e) id) as [x|]; [|destruct H as [-> _]; exact Hs].
    destruct H as [_ H]. destruct (Z.leb_spec (lo_rem x + (nl_rem l - (lo_rem x + lo_filled_qty x))) 0).
    + destruct H as [[y Hy] _]. apply (cancel_effect_bal _ _ _ _ _ V S Hy).
    + destruct H as (e1 & y & Hc & H).
      pose proof (cancel_effect_sound _ _ _ _ _ V S Hc) as S1. destruct (cancel_effect_bal _ _ _ _ _ V S Hc) as [Hb _].
      eapply submit_limit_sync; [exact V | exact S1 | | exact Hb | exact H]. split; [apply N | cbn; lia].
Qed.

(** Without a fill nothing but the market, the tracker and the sampling change. *)
Lemma fills_quiet c u todo e e' :
  fills c u e todo e' -> ex_updates e' = ex_updates e -> e' = e /\ (forall o, In o todo -> fillq c u o = None).
Proof.
  induction 1 as [|e o l e' Hq Hf IH|e o q e1 l e' Hq He Hf IH]; intros E.
  - split; [reflexivity | intros o []].
  - destruct (IH E) as [-> Hn]. split; [reflexivity|]. intros x [<-|Hx]; auto.
  - exfalso. pose proof (proj2 (proj2 (proj2 (proj2 (fills_stable _ _ _ _ _ Hf))))) as Hu. rewrite Hu, (fe_updates _ _ _ _ _ _ He), <- app_assoc in E.
    apply (f_equal (@length _)) in E. rewrite !app_length in E. cbn in E. lia.
Qed.

Lemma check_active_quiet c e u e' :
  Inv c e -> check_active_orders c e u = Done e' -> ex_updates e' = [] ->
  ex_acc e' = ex_acc e /\ ex_pos e' = ex_pos e /\ ex_active e' = ex_active e /\ ex_trk e' = ex_trk e /\ ex_next_id e' = ex_next_id e.
Proof.
  intros I H E. apply check_active_spec in H as [[_ ->]|[_ (e1 & act & _ & _ & Hf & Hr & -> & _)]]; [cbn; auto|].
  cbn in E. destruct (fills_quiet _ _ _ _ _ Hf E) as [-> Hn]. cbn.
  assert (Hm : map (refill c u) (ex_active e) = ex_active e).
  { clear - Hn. induction (ex_active e) as [|o l IH]; [reflexivity|]. cbn. rewrite IH by (intros; apply Hn; right; assumption).
    rewrite refill_eq, Hn by (left; reflexivity). reflexivity. }
  assert (Hg : filter (fully c u) (ex_active e) = []).
  { clear - Hn. induction (ex_active e) as [|o l IH]; [reflexivity|]. cbn. rewrite fully_eq, Hn by (left; reflexivity).
    apply IH. intros; apply Hn; right; assumption. }
  rewrite Hm, Hg in Hr. cbn in Hr. injection Hr as <-. auto.
Qed.

Lemma update_quiet c e ru e' :
  reachable c e -> 0 <= c_max c <= 10000 -> step c e (OpUpdate ru) = Done (e', Ok (OutUpdates [])) ->
  ex_acc e' = ex_acc e /\ ex_pos e' = ex_pos e /\ ex_active e' = ex_active e.
Proof.
  intros R Hm H. pose proof (reachable_inv _ _ Hm R) as I. cbn [step] in H. apply bind_done in H as [u [_ H]].
  apply map_out_done in H as (rr & H & Hr). apply update_state_spec in H as [_ H]. cbv zeta in H.
  destruct (pre_check_fields c e u) as (E1 & E2 & E3 & E4 & E5 & _).
  destruct (check_maintenance_margin _ _ _ _).
  - destruct H as [-> H]. cbn in Hr. injection Hr as Hr.
    eapply check_active_quiet in H; [|apply pre_check_inv; exact I | auto].
    destruct H as (-> & -> & -> & _). auto.
  - destruct H as [-> _]. discriminate.
Qed.

Lemma quiet_sync c e ru e' :
  valid_config c -> reachable c e -> in_sync c e -> step c e (OpUpdate ru) = Done (e', Ok (OutUpdates [])) -> in_sync c e'.
Proof.
  intros V R Hs H. destruct (update_quiet _ _ _ _ R (vc_max _ V) H) as (E1 & E2 & E3).
  unfold in_sync, order_margin_of, balances in *. cbn [ub_om] in *. rewrite E1, E2, E3. exact Hs.
Qed.

(** Debug builds check the sync after every trade and candle. *)
Lemma debug_sync c e ru e' l :
  c_dbg c = true -> reachable c e -> 0 <= c_max c <= 10000 ->
  step c e (OpUpdate ru) = Done (e', Ok (OutUpdates l)) ->
  match ru with RBba _ => True | _ => in_sync c e' end.
Proof.
  intros Hd R Hm H. pose proof (reachable_inv _ _ Hm R) as I. pose proof H as Hst. cbn [step] in H. apply bind_done in H as [u [Hu H]].
  apply map_out_done in H as (rr & H & Hr). apply update_state_spec in H as [_ H]. cbv zeta in H.
  assert (I' : Inv c e') by (eapply step_inv; [apply Hm | exact I | exact Hst]).
  destruct (check_maintenance_margin _ _ _ _); destruct H as [-> H]; [|discriminate].
  assert (Hcf : match ru with RBba _ => True | _ => can_fill u = true end).
  { destruct ru; cbn in Hu; inv; cbn; auto. }
  destruct ru; [exact Logic.I | | |];
  (apply check_active_spec in H as [[E _]|[_ (e1 & act & _ & _ & _ & _ & -> & _ & Hdb)]]; [congruence|];
   destruct (Hdb Hd) as [_ Hom]; unfold in_sync; rewrite <- (inv_books _ _ I'); exact Hom).
Qed.
