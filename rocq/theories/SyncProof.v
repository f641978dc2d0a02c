(** Fills that keep the reserved order margin in step with the requirement. *)
From Coq Require Import Permutation Sorted.
From Verif Require Import ProofBase BookLemmas StepLemmas FillLemmas OpLemmas Inv Spec SpecMargin SpecConfig SpecPanic
  MarginProof FilterProof EntryProof OrderProof BookProof SoundProof PanicProof PanicCor.

(** How much of the orders of a side the position covers. *)
Definition cover (sd : side) (n : Z) : Z := match sd with Buy => Z.max 0 (- n) | Sell => Z.max 0 n end.
Definition side_cost (c : config) (b : list limit_order) (n : Z) (sd : side) : Z :=
  cost (c_kind c) (c_scale c) (hedge (cover sd n) (sorted_side sd b)).

Lemma req_sides c b pos :
  req c b pos = Z.quot (Z.max (side_cost c b (position_quantity pos) Buy) (side_cost c b (position_quantity pos) Sell)
                        * ct_imr (c_spec c)) (c_scale c).
Proof. reflexivity. Qed.

Lemma pairs_cons sd o b : pairs sd (o :: b) = (if side_eq_dec (lo_side o) sd then [(lo_price o, lo_rem o)] else []) ++ pairs sd b.
Proof. reflexivity. Qed.

Lemma pos_pairs sd b : good_book b -> pos_list (pairs sd b).
Proof. intros Hg x Hx. apply pairs_in in Hx as (o & Ho & _ & ->). cbn. destruct (Hg o Ho). lia. Qed.

Lemma single_sorted sd b x : Permutation (pairs sd b) [x] -> sorted_side sd b = [x].
Proof.
  intros H. apply Permutation_length_1_inv. rewrite <- H. symmetry. apply (proj1 (sorted_arranged sd b)).
Qed.
Lemma nil_sorted sd b : Permutation (pairs sd b) [] -> sorted_side sd b = [].
Proof. intros H. apply Permutation_nil. rewrite <- H. symmetry. apply (proj1 (sorted_arranged sd b)). Qed.

Lemma zero_cost c sd b l :
  good_book b -> Permutation (pairs sd b) l -> cost (c_kind c) (c_scale c) (hedge 0 (sorted_side sd b)) = cost (c_kind c) (c_scale c) l.
Proof.
  intros Hg Hp. rewrite (hedge_zero_cost _ _ _ l).
  - rewrite hedge_0; [reflexivity|]. intros x Hx. apply (Permutation_in _ (Permutation_sym Hp)) in Hx.
    apply (pos_pairs sd b Hg) in Hx. lia.
  - apply good_pos_list; assumption.
  - rewrite <- Hp. apply (proj1 (sorted_arranged sd b)).
Qed.

Definition rest_of (o : limit_order) (q : Z) (r : list (Z * Z)) : list (Z * Z) :=
  if q =? lo_rem o then r else (lo_price o, lo_rem o - q) :: r.

(** One fill does not raise the requirement. *)
Lemma fill_req c b b' o q r n :
  valid_config c -> good_book b -> good_book b' -> 0 < q <= lo_rem o ->
  Permutation b (o :: r) ->
  (forall sd, Permutation (pairs sd b')
     (if side_eq_dec (lo_side o) sd then rest_of o q (pairs sd r) else pairs sd r)) ->
  no_ties b ->
  (0 < cover (lo_side o) n -> pairs (lo_side o) r = []) ->
  forall sd, side_cost c b' (n + signed (lo_side o) q) sd <= side_cost c b n sd.
Proof.
  intros V Hg Hg' Hq Hp Hp' Ht Hl sd. unfold side_cost.
  pose proof (pairs_perm sd _ _ Hp) as Hps. rewrite pairs_cons in Hps. specialize (Hp' sd).
  assert (Hpp : forall x, In x (pairs sd r) -> 0 < snd x /\ 0 < fst x).
  { intros x Hx. apply (pos_pairs sd b Hg). apply (Permutation_in _ (Permutation_sym Hps)). apply in_or_app; right; exact Hx. }
  assert (Ho : 0 < lo_price o).
  { apply (Hg o). apply (Permutation_in _ (Permutation_sym Hp)). left; reflexivity. }
  destruct (side_eq_dec (lo_side o) sd) as [<-|Hne].
  - cbn [app] in Hps. destruct (Z.ltb_spec 0 (cover (lo_side o) n)) as [Hc|Hc].
    + specialize (Hl Hc). rewrite Hl in *. rewrite (single_sorted _ _ _ Hps). unfold rest_of in Hp'.
      destruct (Z.eqb_spec q (lo_rem o)).
      * rewrite (nil_sorted _ _ Hp'). cbn [hedge]. rewrite cost_cons. cbn.
        pose proof (value_nonneg (c_kind c) (c_scale c) (lo_rem o - Z.min (lo_rem o) (cover (lo_side o) n)) (lo_price o) (vc_scale _ V) Ho ltac:(lia)). lia.
      * rewrite (single_sorted _ _ _ Hp'). cbn [hedge]. rewrite !cost_cons. cbn [fst snd cost map sumZ fold_right].
        apply Z.add_le_mono_r. apply value_mono; [apply (vc_scale _ V) | assumption|].
        destruct (lo_side o); cbn [cover signed] in *; lia.
    + assert (E1 : cover (lo_side o) n = 0) by (destruct (lo_side o); cbn [cover] in *; lia).
      assert (E2 : cover (lo_side o) (n + signed (lo_side o) q) = 0) by (destruct (lo_side o); cbn [cover signed] in *; lia).
      rewrite E1, E2, (zero_cost c _ _ _ Hg Hps), (zero_cost c _ _ _ Hg' Hp'). unfold rest_of.
      destruct (q =? lo_rem o); rewrite !cost_cons; cbn [fst snd].
      * pose proof (value_nonneg (c_kind c) (c_scale c) (lo_rem o) (lo_price o) (vc_scale _ V) Ho ltac:(lia)). lia.
      * apply Z.add_le_mono_r. apply value_mono; [apply (vc_scale _ V) | assumption | lia].
  - cbn [app] in Hps.
    assert (E : cost (c_kind c) (c_scale c) (hedge (cover sd (n + signed (lo_side o) q)) (sorted_side sd b'))
              = cost (c_kind c) (c_scale c) (hedge (cover sd (n + signed (lo_side o) q)) (sorted_side sd b))).
    { destruct (sorted_arranged sd b') as [Ha1 Ha2]. apply (side_any _ _ 0 sd b); [apply (vc_scale _ V) | assumption | | right; left; apply Ht].
      split; [|exact Ha2]. rewrite Ha1, Hp', Hps. reflexivity. }
    rewrite E. apply hedge_less; [apply (vc_scale _ V) | | apply good_pos_list; assumption].
    destruct (lo_side o), sd; try contradiction; cbn [cover signed]; lia.
Qed.

(** The tracked book after a fill. *)
Lemma ba_perm c b o q b' :
  NoDup (ids b) -> In o b -> book_after c b o q b' ->
  exists r, Permutation b (o :: r) /\
    Permutation b' (if q =? lo_rem o then r else after_fill (c_scale c) o q :: r).
Proof.
  intros Hn Ho H. unfold book_after in H. destruct (q =? lo_rem o).
  - apply om_remove_id_done in H as [x H]. pose proof (remove_with_spec _ (ByOrderId (lo_id o)) _ _ H) as (Hf & Hin & Hp).
    cbn in Hf. rewrite (get_by_id_nodup _ _ Hn Ho) in Hf. injection Hf as <-. exists b'. auto.
  - apply om_update_done in H as [_ [(Hg & _)|(old & Hg & -> & _)]].
    + exfalso. apply get_by_id_none in Hg. apply Hg. cbn. apply in_map; assumption.
    + rewrite replace_by_id_map by assumption. apply in_split in Ho as (l1 & l2 & E). rewrite E in *.
      exists (l1 ++ l2). split; [symmetry; apply Permutation_middle|].
      unfold ids in Hn. rewrite map_app in Hn. cbn [map] in Hn. apply NoDup_remove_2 in Hn.
      assert (H1 : ~ In (lo_id (after_fill (c_scale c) o q)) (ids l1)) by (cbn; intros Hx; apply Hn, in_or_app; left; exact Hx).
      assert (H2 : ~ In (lo_id (after_fill (c_scale c) o q)) (ids l2)) by (cbn; intros Hx; apply Hn, in_or_app; right; exact Hx).
      rewrite map_app. cbn [map]. rewrite !upd_notin by assumption. unfold upd. cbn [after_fill lo_id].
      rewrite Z.eqb_refl. symmetry. apply Permutation_middle.
Qed.

Lemma ba_pairs s b' o q r sd :
  Permutation b' (if q =? lo_rem o then r else after_fill s o q :: r) ->
  Permutation (pairs sd b') (if side_eq_dec (lo_side o) sd then rest_of o q (pairs sd r) else pairs sd r).
Proof.
  intros H. apply (pairs_perm sd) in H. rewrite H. unfold rest_of. destruct (q =? lo_rem o).
  - destruct (side_eq_dec _ _); reflexivity.
  - rewrite pairs_cons. cbn [after_fill lo_side lo_price lo_rem]. destruct (side_eq_dec _ _); reflexivity.
Qed.

(** What has to hold of book and position while fills of the sides [sds] are applied. *)
Definition ready (sds : side -> Prop) (b : list limit_order) (n : Z) : Prop :=
  no_ties b /\
  ((forall sd, sds sd -> lone sd b) \/
   exists sd, (forall sd', sds sd' -> sd' = sd) /\ (0 < cover sd n -> lone sd b)).

Lemma no_ties_fill s b o q r b' :
  Permutation b (o :: r) -> Permutation b' (if q =? lo_rem o then r else after_fill s o q :: r) ->
  (no_ties b -> no_ties b') /\ (forall sd, lone sd b -> lone sd b').
Proof.
  intros H1 H2.
  assert (K : forall sd, Permutation (map fst (pairs sd b'))
     ((if (q =? lo_rem o) then [] else if side_eq_dec (lo_side o) sd then [lo_price o] else []) ++ map fst (pairs sd r))).
  { intros sd. rewrite (Permutation_map fst (ba_pairs _ _ _ _ _ sd H2)). unfold rest_of.
    destruct (side_eq_dec _ _), (q =? lo_rem o); reflexivity. }
  assert (K' : forall sd, Permutation (map fst (pairs sd b))
     ((if side_eq_dec (lo_side o) sd then [lo_price o] else []) ++ map fst (pairs sd r))).
  { intros sd. rewrite (Permutation_map fst (pairs_perm sd _ _ H1)), pairs_cons, map_app. destruct (side_eq_dec _ _); reflexivity. }
  split.
  - intros Ht sd. specialize (Ht sd). apply (Permutation_NoDup (K' sd)) in Ht.
    apply (Permutation_NoDup (Permutation_sym (K sd))).
    destruct (q =? lo_rem o); [|exact Ht]. destruct (side_eq_dec _ _); cbn in Ht |- *; [|exact Ht]. inversion Ht; assumption.
  - intros sd Hl. unfold lone in *. rewrite <- (map_length fst) in *.
    rewrite (Permutation_length (K sd)). rewrite (Permutation_length (K' sd)) in Hl. rewrite !app_length in *.
    destruct (q =? lo_rem o), (side_eq_dec (lo_side o) sd); cbn [length] in *; lia.
Qed.

Lemma ba_ready c b o q b' pos pos' (sds : side -> Prop) :
  valid_config c -> good_book b -> good_book b' -> NoDup (ids b) -> In o b -> sds (lo_side o) -> 0 < q <= lo_rem o ->
  book_after c b o q b' -> position_quantity pos' = position_quantity pos + signed (lo_side o) q ->
  ready sds b (position_quantity pos) ->
  ready sds b' (position_quantity pos') /\ req c b' pos' <= req c b pos.
Proof.
  intros V Hg Hg' Hnd Ho Hs Hq F Hn [Ht Hr].
  destruct (ba_perm _ _ _ _ _ Hnd Ho F) as (r & P1 & P2).
  destruct (no_ties_fill _ _ _ _ _ _ P1 P2) as [Kt Kl].
  assert (Hlone : 0 < cover (lo_side o) (position_quantity pos) -> pairs (lo_side o) r = []).
  { intros Hc. assert (L : lone (lo_side o) b).
    { destruct Hr as [Hr|(sd & Hr1 & Hr2)]; [auto|]. pose proof (Hr1 _ Hs) as <-. auto. }
    unfold lone in L. rewrite (Permutation_length (pairs_perm _ _ _ P1)), pairs_cons in L.
    destruct (side_eq_dec (lo_side o) (lo_side o)); [|contradiction]. cbn in L.
    destruct (pairs (lo_side o) r); [reflexivity | cbn in L; lia]. }
  split.
  - split; [apply Kt; assumption|]. destruct Hr as [Hr|(sd & Hr1 & Hr2)].
    + left. intros sd Hsd. apply Kl, Hr, Hsd.
    + right. exists sd. split; [exact Hr1|]. intros Hc. apply Kl. apply Hr2. pose proof (Hr1 _ Hs) as <-.
      rewrite Hn in Hc. destruct (lo_side o); cbn [cover signed] in *; lia.
  - rewrite !req_sides, Hn.
    assert (H : forall sd, side_cost c b' (position_quantity pos + signed (lo_side o) q) sd
                <= side_cost c b (position_quantity pos) sd).
    { apply (fill_req c _ _ o q r); try assumption. intros sd. eapply ba_pairs; eassumption. }
    apply quot_max_mono; [apply (vc_scale _ V) | apply (vc_imr _ V) | apply H | apply H].
Qed.

Lemma fe_ready c u e e' o q (sds : side -> Prop) :
  valid_config c -> Mid c e -> In o (ex_om e) -> sds (lo_side o) -> fill_effect c u e e' o q ->
  ready sds (ex_om e) (position_quantity (ex_pos e)) ->
  bal (ex_acc e) ORDER_MARGIN = req c (ex_om e) (ex_pos e) ->
  ready sds (ex_om e') (position_quantity (ex_pos e')) /\
  bal (ex_acc e') ORDER_MARGIN = req c (ex_om e') (ex_pos e').
Proof.
  intros V M Ho Hs F Hr Hsync. assert (Hprice : 0 < lo_price o) by apply (mi_good _ _ M o Ho).
  pose proof (fe_good _ _ _ _ _ _ (mi_good _ _ M) Hprice F) as Hg'.
  destruct (fe_acc _ _ _ _ _ _ F) as (a1 & nm & Hcp & _).
  destruct (ba_ready c (ex_om e) o q (ex_om e') (ex_pos e) (ex_pos e') sds V (mi_good _ _ M) Hg' (mi_nodup _ _ M) Ho Hs
    (fe_q _ _ _ _ _ _ F) (fe_om _ _ _ _ _ _ F) (cp_qty _ _ _ _ _ _ _ _ _ Hcp) Hr) as [R1 R2].
  split; [exact R1|]. rewrite (fe_om_bal _ _ _ _ _ _ V (mi_good _ _ M) Hprice (mi_pos _ _ M) F). lia.
Qed.

(** The sides an update can fill. *)
Definition hits (u : market_update) (sd : side) : Prop :=
  match u with
  | UBba _ => False
  | UTrade t => sd <> tr_side t
  | _ => True
  end.
Lemma fillq_hits c u o q : fillq c u o = Some q -> hits u (lo_side o).
Proof.
  unfold fillq. destruct u; cbn; auto.
  - intros; discriminate.
  - unfold trade_fills. destruct (debug_assert _ _ PTradeQtyDebug); cbn [bind]; [|discriminate].
    destruct (debug_assert _ _ PTradeRemDebug); cbn [bind]; [|discriminate].
    destruct (lo_side o), (tr_side t); cbn; try discriminate; intros _ E; discriminate.
Qed.

Lemma fills_ready c u todo e e' :
  valid_config c -> fills c u e todo e' -> Mid c e -> todo_in (ex_om e) todo ->
  ready (hits u) (ex_om e) (position_quantity (ex_pos e)) ->
  bal (ex_acc e) ORDER_MARGIN = req c (ex_om e) (ex_pos e) ->
  bal (ex_acc e') ORDER_MARGIN = req c (ex_om e') (ex_pos e').
Proof.
  intros V. induction 1 as [|e o l e' Hn Hl IH|e o q e1 l e' Hq He Hl IH]; intros M T R S; auto.
  - apply IH; try assumption. destruct T as (T1 & T2 & T3). split; [assumption|]. inversion T2; subst.
    split; [assumption|]. intros x Hx; apply T3; right; assumption.
  - destruct T as (T1 & T2 & T3). assert (Ho : In o (ex_om e)) by (apply T3; left; reflexivity).
    destruct (fe_nodup _ _ _ _ _ _ T1 Ho He) as [Hn Hk]. inversion T2; subst.
    destruct (fe_ready _ _ _ _ _ _ _ V M Ho (fillq_hits _ _ _ _ Hq) He R S) as (R1 & S1).
    apply IH; [eapply fe_mid; eassumption | | exact R1 | exact S1]. split; [assumption|]. split; [assumption|].
    intros x Hx. apply Hk; [|apply T3; right; assumption].
    intros E. apply H1. rewrite <- E. apply in_map; assumption.
Qed.

Lemma nodup_le1 (l : list Z) : (length l <= 1)%nat -> NoDup l.
Proof. destruct l as [|x [|y l]]; cbn; intros; [constructor | repeat constructor; intros [] | lia]. Qed.

Lemma gentle_ready dbg ru u e :
  build_update dbg ru = Done u -> gentle ru e -> can_fill u = true ->
  ready (hits u) (ex_active e) (position_quantity (ex_pos e)).
Proof.
  intros Hb Hg Hc.
  assert (Hlone : lone Buy (ex_active e) /\ lone Sell (ex_active e) -> ready (fun _ => True) (ex_active e) (position_quantity (ex_pos e))).
  { intros [H1 H2]. split.
    - intros [|]; apply nodup_le1; rewrite map_length; assumption.
    - left. intros [|] _; assumption. }
  destruct ru as [b|t|k|ts b f]; cbn in Hb, Hg; inv; cbn in Hc; try discriminate.
  - destruct Hg as [H1 H2]. split; [exact H1|]. right. destruct (tr_side t) eqn:E.
    + exists Sell. split; [intros sd' Hs; cbn in Hs; rewrite E in Hs; destruct sd'; congruence|]. intros Hx; apply H2. cbn in Hx; lia.
    + exists Buy. split; [intros sd' Hs; cbn in Hs; rewrite E in Hs; destruct sd'; congruence|]. intros Hx; apply H2. cbn in Hx; lia.
  - apply Hlone; assumption.
  - apply Hlone; assumption.
Qed.

Lemma check_active_sync c e u e' :
  valid_config c -> Sound c e -> (can_fill u = true -> ready (hits u) (ex_active e) (position_quantity (ex_pos e))) ->
  bal (ex_acc e) ORDER_MARGIN = req c (ex_active e) (ex_pos e) -> check_active_orders c e u = Done e' ->
  bal (ex_acc e') ORDER_MARGIN = req c (ex_active e') (ex_pos e').
Proof.
  intros V S R Hs H. pose proof (check_active_inv _ _ _ _ (so_inv _ _ S) H) as I'. pose proof (inv_books _ _ I') as HB'.
  pose proof (inv_books _ _ (so_inv _ _ S)) as HB.
  apply check_active_spec in H as [(_ & ->)|(Hc & e1 & act & _ & _ & Hf & _ & -> & _)]; [exact Hs|].
  rewrite <- HB'. cbn [set_active ex_acc ex_om ex_pos]. eapply fills_ready; [exact V | exact Hf | | | |].
  - pose proof (sound_mid _ _ S) as M. destruct M. constructor; cbn; auto.
  - cbn. apply (inv_todo c). apply (so_inv _ _ S).
  - cbn. rewrite HB. auto.
  - cbn. rewrite HB. exact Hs.
Qed.

Lemma calm_sync c e o e' r :
  valid_config c -> reachable c e -> in_sync c e -> step c e o = Done (e', r) -> calm e o r -> in_sync c e'.
Proof.
  intros V R Hs H Hc. pose proof (reachable_sound _ _ V R) as S. pose proof (step_sound _ _ _ _ _ V S H) as S'.
  destruct o as [ru|sd q uid| | | |ru]; try (eapply entry_sync; [exact V | exact R | | exact Hs | exact H]; exact Logic.I).
  - apply (sync_req _ _ V S'). apply (sync_req _ _ V S) in Hs. pose proof H as Hst. cbn [step] in H.
    apply bind_done in H as [u [Hu H]]. apply map_out_done in H as (rr & H & Hr). apply update_state_spec in H as [_ H]. cbv zeta in H.
    pose proof (pre_check_sound c e u S) as S0. destruct (pre_check_fields c e u) as (E1 & E2 & E3 & _).
    destruct (check_maintenance_margin _ _ _ _) eqn:Em.
    + destruct H as [-> H]. cbn [map_result] in Hr. subst r.
      destruct (ex_updates e') as [|x l] eqn:Eu.
      * destruct (update_quiet c e ru e') as (F1 & F2 & F3); [exact R | apply (vc_max _ V) | exact Hst|].
        rewrite F1, F2, F3. exact Hs.
      * cbn [calm] in Hc. eapply check_active_sync; [exact V | exact S0 | | | exact H].
        -- rewrite E2, E3. intros Hcf. eapply gentle_ready; [exact Hu | exact Hc | exact Hcf].
        -- rewrite E1, E2, E3. exact Hs.
    + destruct H as [-> H]. cbn [map_result] in Hr. subst r. cbn [calm] in Hc.
      apply liquidate_spec in H as (o & M & _). rewrite (me_active _ _ _ _ M), E3, Hc, req_nil.
      rewrite (cp_om _ _ _ _ _ _ _ _ _ (me_cp _ _ _ _ M)), E1. apply (so_empty _ _ S Hc).
  - apply (sync_req _ _ V S'). apply (sync_req _ _ V S) in Hs. cbn [step] in H.
    destruct (market_new sd q uid) as [m|]; [|inv; exact Hs].
    apply map_out_done in H as (rr & H & Hr). apply submit_market_spec in H. destruct rr; cbn [map_result] in Hr; subst r.
    + destruct H as [_ M]. destruct Hc as [Hc|[err Hc]]; [|discriminate].
      rewrite (me_active _ _ _ _ M), Hc, req_nil, (cp_om _ _ _ _ _ _ _ _ _ (me_cp _ _ _ _ M)). apply (so_empty _ _ S Hc).
    + destruct H as ((_ & -> & -> & -> & _) & _). exact Hs.
  - apply (sync_req _ _ V S'). apply (sync_req _ _ V S) in Hs. cbn [step] in H.
    apply bind_done in H as [u [Hu H]]. apply bind_done in H as [e1 [H Hr]]. injection Hr as <- <-.
    eapply check_active_sync; [exact V | exact S | | exact Hs | exact H].
    intros Hcf. eapply gentle_ready; [exact Hu | exact Hc | exact Hcf].
Qed.

Lemma calm_run_sync c ops : valid_config c -> forall e e' outs,
  reachable c e -> in_sync c e -> calm_run c e ops -> run c e ops = Done (e', outs) -> in_sync c e'.
Proof.
  intros V. induction ops as [|o ops IH]; intros e e' outs R S Hc H; cbn [run calm_run] in *.
  - injection H as <- <-. exact S.
  - destruct (step c e o) as [[e1 r]|w] eqn:E; [|discriminate]. cbn [bind] in H. destruct Hc as [Hc1 Hc2].
    apply bind_done in H as [[e2 outs2] [H2 H]]. injection H as <- <-.
    apply (IH e1 e2 outs2); [| eapply calm_sync; eassumption | exact Hc2 | exact H2].
    destruct R as (ops0 & outs0 & e0 & Hi & R). exists (ops0 ++ [o]), (outs0 ++ [r]), e0. split; [exact Hi|].
    apply run_app. exists e, outs0, [r]. split; [exact R|]. split; [|reflexivity]. apply run_single. eauto.
Qed.

Lemma calm_history_sync c ops e outs e0 :
  valid_config c -> init c = Done e0 -> run c e0 ops = Done (e, outs) -> calm_run c e0 ops -> in_sync c e.
Proof.
  intros V Hi H Hc. assert (R : reachable c e0) by (exists [], [], e0; auto).
  eapply (calm_run_sync c ops V e0); [exact R | | exact Hc | exact H].
  apply empty_in_sync; [exact V | exact R |]. unfold init in Hi.
  repeat (apply bind_done in Hi as [? [_ Hi]]). injection Hi as <-. reflexivity.
Qed.

(** ** The assertions about order margin *)
Lemma fill_loop_sync_safe c u todo :
  valid_config c -> can_fill u = true -> update_good (c_dbg c) u -> forall e l,
  Mid c e -> NoDup (ids todo) -> incl todo (ex_om e) -> (forall o, In o todo -> order_ok o) ->
  ready (hits u) (ex_om e) (position_quantity (ex_pos e)) ->
  bal (ex_acc e) ORDER_MARGIN = req c (ex_om e) (ex_pos e) ->
  safe (PTradeQtyDebug :: PFillNonPos :: position_sites) (fill_loop c u e l todo).
Proof.
  intros V Hc Hu. induction todo as [|o t IH]; intros e l M Hn Hi Hok R S; cbn [fill_loop]; [apply safe_done|].
  assert (Ho : In o (ex_om e)) by (apply Hi; left; reflexivity).
  apply safe_bind.
  { apply fill_one_safe_gen; auto; [apply Hok; left; reflexivity | intros w Hw; exact Hw | contradiction|].
    intros q b' pos' Hq Hqr Hb Hg Hp Hlt. exfalso.
    destruct (ba_ready c (ex_om e) o q b' (ex_pos e) pos' (hits u) V (mi_good _ _ M) Hg (mi_nodup _ _ M) Ho
      (fillq_hits _ _ _ _ Hq) Hqr Hb Hp R) as [_ Hle]. lia. }
  intros [[e1 l1] o1] H1. destruct (fill_one_next _ _ _ _ _ _ _ _ V M Ho H1) as [M1 Hk].
  inversion Hn as [|? ? Hni Hn']; subst.
  apply safe_bind; [|intros [[e2 l2] t2] _; apply safe_done].
  assert (RS : ready (hits u) (ex_om e1) (position_quantity (ex_pos e1)) /\
               bal (ex_acc e1) ORDER_MARGIN = req c (ex_om e1) (ex_pos e1)).
  { apply fill_one_spec in H1 as (f & Hf & Hx). destruct f as [q|].
    - destruct Hx as (He & _). eapply fe_ready; [exact V | exact M | exact Ho | | exact He | exact R | exact S].
      eapply (fillq_hits c u o q). unfold fillq. rewrite Hf. reflexivity.
    - destruct Hx as (-> & _). auto. }
  destruct RS as [R1 S1].
  apply IH; try assumption; [|intros x Hx; apply Hok; right; exact Hx].
  intros x Hx. apply Hk; [|apply Hi; right; exact Hx]. intros E. apply Hni. rewrite <- E. apply in_map; exact Hx.
Qed.

Lemma check_active_sync_safe c e u :
  valid_config c -> Sound c e -> update_good (c_dbg c) u ->
  (can_fill u = true -> ready (hits u) (ex_active e) (position_quantity (ex_pos e))) ->
  bal (ex_acc e) ORDER_MARGIN = req c (ex_active e) (ex_pos e) ->
  safe (PWalletNegative :: PTradeQtyDebug :: PFillNonPos :: position_sites) (check_active_orders c e u).
Proof.
  intros V S Hu R Hs w Hw. pose proof (so_inv _ _ S) as I.
  pose proof (check_active_safe _ _ _ V S Hu _ Hw) as Hin.
  assert (Hloop : can_fill u = true -> safe (PTradeQtyDebug :: PFillNonPos :: position_sites) (fill_loop c u (set_updates e []) [] (ex_active e))).
  { intros Hc. apply fill_loop_sync_safe; try assumption; cbn [set_updates ex_om ex_pos ex_acc].
    - pose proof (sound_mid _ _ S) as M. destruct M. constructor; cbn; auto.
    - apply (inv_nodup _ _ I).
    - rewrite (inv_books _ _ I). intros x Hx; exact Hx.
    - apply (inv_ok _ _ I).
    - rewrite (inv_books _ _ I). auto.
    - rewrite (inv_books _ _ I). exact Hs. }
  revert Hw. unfold check_active_orders. destruct (can_fill u) eqn:Hc; cbn [negb]; [|discriminate].
  specialize (Hloop eq_refl). specialize (R eq_refl). cbn [set_updates ex_om ex_active] in *.
  rewrite (inv_books _ _ I), orders_eqb_refl, debug_assert_true. cbn [bind].
  destruct (fill_loop c u (set_updates e []) [] (ex_active e)) as [[[e1 ids'] arena]|w'] eqn:El; cbn [bind].
  2:{ intros [= ->]. right. apply Hloop. reflexivity. }
  apply fill_loop_spec in El as (Hf & Hfills & -> & ->). cbn [app].
  pose proof (fills_book _ _ _ _ _ [] [] Hfills) as Hb. cbn [app] in Hb.
  specialize (Hb (inv_nodup _ _ I) (fun i Hi => match Hi with end)).
  cbn [set_updates ex_om remove_executed] in Hb. rewrite (inv_books _ _ I) in Hb. specialize (Hb eq_refl). rewrite Hb. cbn [bind].
  assert (M0 : Mid c (set_updates e [])).
  { pose proof (sound_mid _ _ S) as M. destruct M. constructor; cbn; auto. }
  assert (M1 : Mid c e1) by (eapply fills_mid; [assumption | exact Hfills | assumption | cbn; apply (inv_todo c e I)]).
  assert (S1 : bal (ex_acc e1) ORDER_MARGIN = req c (ex_om e1) (ex_pos e1)).
  { eapply fills_ready; [exact V | exact Hfills | exact M0 | cbn; apply (inv_todo c e I) | |]; cbn; rewrite (inv_books _ _ I); assumption. }
  cbn [set_active ex_om ex_active ex_acc]. rewrite orders_eqb_refl, debug_assert_true. cbn [bind].
  assert (He : match ex_om e1 with [] => margin_balance_of (ex_acc e1) ORDER_MARGIN =? 0 | _ :: _ => true end = true).
  { destruct (ex_om e1) eqn:E; [|reflexivity]. pose proof (mi_empty _ _ M1 E) as Hx. unfold bal in Hx. lia. }
  rewrite He, debug_assert_true. cbn [bind]. unfold computed_order_margin. cbn [set_active ex_om ex_pos].
  rewrite om_eq; [|assumption | apply (mi_good _ _ M1) | apply (mi_pos _ _ M1)]. cbn [bind]. rewrite <- S1. unfold bal. rewrite Z.eqb_refl.
  unfold debug_assert_m. replace (if c_dbg c then b <- Done true;; assert b PEndMarginDebug else Done tt) with (Done tt) by (destruct (c_dbg c); reflexivity).
  cbn [bind]. unfold assert_user_wallet_balance, assert. destruct (_ <=? _); [discriminate|]. intros [= <-]. left; reflexivity.
Qed.

Lemma margin_sites_silent c e ru w :
  valid_config c -> reachable c e -> in_sync c e -> gentle ru e -> step c e (OpUpdate ru) = Panic w -> ~ In w margin_sites.
Proof.
  intros V R Hs Hg H. pose proof (reachable_sound _ _ V R) as S. apply (sync_req _ _ V S) in Hs.
  cbn [step] in H. destruct (build_update (c_dbg c) ru) as [u|w'] eqn:Hb; cbn [bind] in H.
  2:{ injection H as ->. pose proof (build_safe _ _ _ Hb) as Hin. intros Hm. cbn in Hin, Hm.
      repeat (destruct Hin as [<-|Hin]; [intuition discriminate|]). destruct Hin. }
  assert (Hsafe : safe (PSettlePrice :: PLiquidateSubmit :: PInvalidUpdateDebug :: PWalletNegative :: PTradeQtyDebug :: PFillNonPos :: position_sites) (update_state c e u)).
  { clear H. unfold update_state. apply safe_bind.
    { unfold market_update_state. apply safe_bind; [|intros; apply safe_done].
      destruct (data_total (ct_pf (c_spec c)) u (vc_ptick _ V)) as [v ->]. cbn [bind].
      apply safe_dassert_m; [intros; apply safe_done | intros; site]. }
    intros ms Hm. unfold market_update_state in Hm. apply bind_done in Hm as [? [_ Hm]]. injection Hm as <-.
    pose proof (pre_check_sound c e u S) as S0. destruct (pre_check_fields c e u) as (E1 & E2 & E3 & _).
    assert (H2 : safe (PSettlePrice :: PLiquidateSubmit :: PInvalidUpdateDebug :: PWalletNegative :: PTradeQtyDebug :: PFillNonPos :: position_sites)
              match check_maintenance_margin c (ms_bid (ex_ms (pre_check c e u)))
                       (ms_ask (ex_ms (pre_check c e u))) (ex_pos (pre_check c e u)) with
               | Err err => e5 <- liquidate c (pre_check c e u) ;; Done (e5, Err (ERisk err))
               | Ok _ => e5 <- check_active_orders c (pre_check c e u) u ;; Done (e5, Ok (ex_updates e5))
               end).
    { destruct (check_maintenance_margin _ _ _ _) eqn:Em.
      - apply safe_bind; [|intros; apply safe_done]. eapply safe_weaken.
        + apply check_active_sync_safe; [assumption | exact S0 | eapply build_good; exact Hb | |].
          * rewrite E2, E3. intros Hcf. eapply gentle_ready; eassumption.
          * rewrite E1, E2, E3. exact Hs.
        + intros y Hy. right; right; right. exact Hy.
      - apply safe_bind; [|intros; apply safe_done]. eapply safe_weaken.
        + apply liquidate_safe; [assumption | assumption | eapply maintenance_neutral; exact Em].
        + intros y Hy. cbn in Hy |- *. tauto. }
    unfold pre_check in H2. cbn [set_ms set_trk ex_trig ex_ms ex_trk] in *.
    destruct (should_trigger (ex_trig e) (update_ts u)) as [trig fire]. exact H2. }
  apply (map_out_safe _ OutUpdates) in Hsafe. specialize (Hsafe _ H). intros Hm. cbn in Hsafe, Hm.
  repeat (destruct Hsafe as [<-|Hsafe]; [intuition discriminate|]). destruct Hsafe.
Qed.
