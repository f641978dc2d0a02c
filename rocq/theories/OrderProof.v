(** Histories of orders: ids, quantities, end of life, reported updates. *)
From Coq Require Import Permutation Sorted.
From Verif Require Import ProofBase BookLemmas StepLemmas FillLemmas OpLemmas Inv BookProof Spec SpecBook.

(** ** Induction over histories *)
Lemma run_app c ops1 : forall e ops2 e' outs,
  run c e (ops1 ++ ops2) = Done (e', outs) <->
  exists e1 o1 o2, run c e ops1 = Done (e1, o1) /\ run c e1 ops2 = Done (e', o2) /\ outs = o1 ++ o2.
Proof.
  induction ops1 as [|o ops1 IH]; intros e ops2 e' outs; cbn [app run].
  - split.
    + intros H. exists e, [], outs. auto.
    + intros (e1 & o1 & o2 & H1 & H2 & ->). inv. exact H2.
  - split.
    + intros H. apply bind_done in H as [[e1 r] [H1 H]]. apply bind_done in H as [[e2 rs] [H2 H]]. inv.
      apply IH in H2 as (e3 & o1 & o2 & H3 & H4 & ->). exists e3, (r :: o1), o2.
      rewrite H1. cbn [bind]. rewrite H3. cbn [bind]. split; [reflexivity|]. auto.
    + intros (e1 & o1 & o2 & H1 & H2 & ->). apply bind_done in H1 as [[e3 r] [H1 H]].
      apply bind_done in H as [[e4 rs] [H3 H]]. inv. rewrite H1. cbn [bind].
      assert (Hr : run c e3 (ops1 ++ ops2) = Done (e', rs ++ o2)) by (apply IH; do 3 eexists; split; [eassumption|]; split; [eassumption | reflexivity]).
      rewrite Hr. reflexivity.
Qed.

Lemma run_length c ops : forall e e' outs, run c e ops = Done (e', outs) -> length outs = length ops.
Proof.
  induction ops as [|o ops IH]; intros e e' outs H; cbn [run] in H; inv; [reflexivity|].
  cbn. f_equal. eapply IH; eassumption.
Qed.

Lemma run_single c e o e' outs :
  run c e [o] = Done (e', outs) <-> exists r, step c e o = Done (e', r) /\ outs = [r].
Proof.
  cbn [run]. split.
  - intros H. apply bind_done in H as [[e1 r] [H1 H]]. cbn [bind] in H. inv. eauto.
  - intros (r & -> & ->). reflexivity.
Qed.

Lemma history_ind c (P : exchange -> list op -> list (result error out) -> Prop) :
  (forall e0, init c = Done e0 -> P e0 [] []) ->
  (forall e ops outs o e' r, history c ops e outs -> P e ops outs -> step c e o = Done (e', r) ->
     P e' (ops ++ [o]) (outs ++ [r])) ->
  forall ops e outs, history c ops e outs -> P e ops outs.
Proof.
  intros H0 Hs ops. induction ops as [|o ops IH] using rev_ind; intros e outs (e0 & Hi & Hr).
  - cbn in Hr. inv. auto.
  - apply run_app in Hr as (e1 & o1 & o2 & H1 & H2 & ->). apply run_single in H2 as (r & H2 & ->).
    eapply Hs; [exists e0; eauto | apply IH; exists e0; eauto | exact H2].
Qed.

Lemma history_inv c ops e outs : 0 <= c_max c <= 10000 -> history c ops e outs -> Inv c e.
Proof.
  intros Hm (e0 & Hi & Hr). eapply run_inv; [lia | eapply init_inv; [lia | eassumption] | eassumption].
Qed.
Lemma reachable_inv c e : 0 <= c_max c <= 10000 -> reachable c e -> Inv c e.
Proof. intros Hm (ops & outs & H). eapply history_inv; eassumption. Qed.

Lemma history_length c ops e outs : history c ops e outs -> length outs = length ops.
Proof. intros (e0 & _ & H). eapply run_length; eassumption. Qed.

Lemma calls_snoc ops outs o r :
  length outs = length ops -> calls (ops ++ [o]) (outs ++ [r]) = calls ops outs ++ [(o, r)].
Proof.
  unfold calls. revert outs. induction ops as [|x ops IH]; intros [|y outs] H; try discriminate; [reflexivity|].
  cbn in *. f_equal. apply IH. lia.
Qed.
Lemma calls_app ops1 : forall outs1 ops2 outs2,
  length outs1 = length ops1 -> calls (ops1 ++ ops2) (outs1 ++ outs2) = calls ops1 outs1 ++ calls ops2 outs2.
Proof.
  unfold calls. induction ops1 as [|x ops IH]; intros [|y outs] ops2 outs2 H; try discriminate; [reflexivity|].
  cbn in *. f_equal. apply IH. lia.
Qed.

(** ** Ids *)
Lemma step_ids c e o e' r :
  book_change c e e' o r ->
  ex_next_id e <= ex_next_id e' /\
  (issued_in (o, r) = [] \/ (issued_in (o, r) = [ex_next_id e] /\ ex_next_id e' = ex_next_id e + 1)).
Proof.
  intros H. destruct H as [o r Ha Hn Hf _ Hcan Hmk Hupd|sd p q uid ord (-> & _) Ha Hn|b x Hfb Hp Hn
    |id sd p q uid x err _ _ Hg Hp Hn _ _ _|id sd p q uid x mid ord e1 _ _ Hg Hp Hn1 _ _ (-> & _) Ha Hn
    |u ru o r e0 e1 Ho Hu Hcf Hlf Hf Hp Hn].
  - split; [lia|]. destruct r as [[l|m|l|]|]; cbn in Hf.
    + left. destruct o; reflexivity.
    + destruct (Hmk m eq_refl) as (sd & q & uid & ->). right. cbn. destruct Hf as [-> ->]. auto.
    + contradiction.
    + left. destruct o; reflexivity.
    + left. destruct o; reflexivity.
  - split; [lia|]. right. cbn. auto.
  - split; [lia|]. left. reflexivity.
  - split; [lia|]. left. reflexivity.
  - split; [lia|]. right. cbn. rewrite Hn1. auto.
  - split; [lia|]. left. destruct Ho as [[-> ->]|[-> ->]]; reflexivity.
Qed.

Lemma sorted_snoc l x : StronglySorted Z.lt l -> (forall y, In y l -> y < x) -> StronglySorted Z.lt (l ++ [x]).
Proof.
  induction 1 as [|a l Hl IH Ha]; intros Hx; cbn; [repeat constructor|].
  constructor; [apply IH; intros; apply Hx; right; assumption|].
  rewrite Forall_forall in *. intros y Hy. apply in_app_or in Hy as [Hy|[<-|[]]]; [auto|]. apply Hx. left; reflexivity.
Qed.

Lemma ids_increase c ops e outs :
  0 <= c_max c <= 10000 -> history c ops e outs ->
  StronglySorted Z.lt (issued_ids ops outs) /\ (forall i, In i (issued_ids ops outs) -> i < ex_next_id e).
Proof.
  intros Hm. revert ops e outs. apply history_ind.
  - intros. cbn. split; [constructor | contradiction].
  - intros e ops outs o e' r Hh [IH1 IH2] Hs. pose proof (history_inv _ _ _ _ Hm Hh) as HI.
    apply step_book in Hs; [|lia|exact HI]. apply step_ids in Hs as [Hle Hs].
    unfold issued_ids in *. rewrite calls_snoc by (eapply history_length; eassumption).
    rewrite flat_map_app. cbn [flat_map]. rewrite app_nil_r. destruct Hs as [->|[-> Hn]].
    + rewrite app_nil_r. split; [exact IH1|]. intros i Hi. specialize (IH2 i Hi). lia.
    + split.
      * apply sorted_snoc; [exact IH1 | exact IH2].
      * intros i Hi. apply in_app_or in Hi as [Hi|[<-|[]]]; [specialize (IH2 i Hi)|]; lia.
Qed.

(** ** Quantity conservation *)
Lemma descends_refl o : lo_filled o = Unfilled -> descends o o.
Proof. intros H. unfold descends, lo_filled_qty. rewrite H. repeat split; auto. lia. Qed.

Lemma after_fill_filled s o q : lo_filled_qty (after_fill s o q) = lo_filled_qty o + q.
Proof. unfold lo_filled_qty, after_fill. cbn. destruct (lo_filled o); reflexivity. Qed.

Lemma descends_fill s a o q : descends a o -> descends a (after_fill s o q).
Proof.
  unfold descends. rewrite after_fill_filled. cbn. intros (? & ? & ? & ? & ? & ? & ?).
  repeat split; auto. lia.
Qed.

Lemma descends_refill c u a o : descends a o -> descends a (refill c u o).
Proof. rewrite refill_eq. destruct (fillq c u o); auto. apply descends_fill. Qed.

Lemma active_change c e o e' r :
  book_change c e e' o r ->
  forall x, In x (ex_active e') ->
    (exists y, In y (ex_active e) /\ (x = y \/ exists u, x = refill c u y)) \/
    (In x (accepted_in (o, r)) /\ lo_filled x = Unfilled).
Proof.
  intros H x Hx. destruct H as [o r Ha Hn Hf _ Hcan Hmk Hupd|sd p q uid ord (-> & _) Ha Hn|b y Hfb Hp Hn
    |id sd p q uid y err _ _ Hg Hp Hn _ _ _|id sd p q uid y mid ord e1 _ _ Hg Hp Hn1 _ _ (-> & _) Ha Hn
    |u ru o r e0 e1 Ho Hu Hcf Hlf Hf Hp Hn].
  - rewrite Ha in Hx. left; eauto.
  - rewrite Ha in Hx. apply in_app_or in Hx as [Hx|[<-|[]]]; [left; eauto | right; cbn; auto].
  - left. exists x. split; [|auto]. rewrite Hp. right; exact Hx.
  - left. exists x. split; [|auto]. rewrite Hp. right; exact Hx.
  - rewrite Ha in Hx. apply in_app_or in Hx as [Hx|[<-|[]]]; [left|right; cbn; auto].
    exists x. split; [|auto]. rewrite Hp. right; exact Hx.
  - rewrite Hp in Hx. apply in_map_iff in Hx as (y & <- & Hy). apply filter_In in Hy as [Hy _]. left; eauto.
Qed.

(** Events of a fill. *)
Lemma event_in c u l x : In x (flat_map (event c u) l) <->
  exists o q, In o l /\ fillq c u o = Some q /\ x = fill_event (c_scale c) o q (update_ts u).
Proof.
  rewrite in_flat_map. split.
  - intros (o & Ho & Hx). rewrite event_eq in Hx. destruct (fillq c u o) as [q|] eqn:E; [|contradiction].
    destruct Hx as [<-|[]]. eauto.
  - intros (o & q & Ho & E & ->). exists o. split; [exact Ho|]. rewrite event_eq, E. left; reflexivity.
Qed.

Lemma fill_event_id s o q ts : update_id (fill_event s o q ts) = lo_id o.
Proof. unfold fill_event. destruct (q =? lo_rem o); reflexivity. Qed.

Lemma reported_change c e o e' r :
  book_change c e e' o r ->
  forall x, In x (reported_in (o, r)) ->
    exists y u q, In y (ex_active e) /\ fillq c u y = Some q /\ 0 < q <= lo_rem y /\
                x = fill_event (c_scale c) y q (update_ts u).
Proof.
  intros H x Hx. destruct H as [o r Ha Hn Hf _ Hcan Hmk Hupd|sd p q uid ord (-> & _) Ha Hn|b y Hfb Hp Hn
    |id sd p q uid y err _ _ Hg Hp Hn _ _ _|id sd p q uid y mid ord e1 _ _ Hg Hp Hn1 _ _ (-> & _) Ha Hn
    |u ru o r e0 e1 Ho Hu Hcf Hlf Hf Hp Hn]; try contradiction.
  - destruct o; try contradiction. destruct r as [[]|]; try contradiction. cbn in *. subst l. contradiction.
  - destruct Ho as [[-> ->]|[-> ->]]; [|contradiction]. cbn in Hx. apply event_in in Hx as (y & q & Hy & E & ->).
    exists y, u, q. split; [exact Hy|]. split; [exact E|]. split; [eapply fills_q; eassumption | reflexivity].
Qed.

Lemma quantity_conserved c ops e outs :
  0 <= c_max c <= 10000 -> history c ops e outs ->
  (forall o, In o (ex_active e) -> 0 < lo_rem o /\ exists a, In a (accepted_orders ops outs) /\ descends a o) /\
  (forall u, In u (reported ops outs) -> exists a, In a (accepted_orders ops outs) /\ report_matches a u).
Proof.
  intros Hm. revert ops e outs. apply history_ind.
  - intros e0 H. apply init_fields in H as (_ & _ & _ & _ & _ & -> & _). cbn. split; intros; contradiction.
  - intros e ops outs o e' r Hh [IH1 IH2] Hs. pose proof (history_inv _ _ _ _ Hm Hh) as HI.
    assert (HI' : Inv c e') by (eapply step_inv; [|exact HI|exact Hs]; lia).
    apply step_book in Hs; [|lia|exact HI].
    unfold accepted_orders, reported in *. rewrite calls_snoc by (eapply history_length; eassumption).
    rewrite !flat_map_app. cbn [flat_map]. rewrite !app_nil_r. split.
    + intros x Hx. split; [apply (inv_ok _ _ HI' x Hx)|].
      destruct (active_change _ _ _ _ _ Hs x Hx) as [(y & Hy & Hxy)|[Hacc Hu]].
      * destruct (IH1 y Hy) as (_ & a & Ha & Hd). exists a. split; [apply in_or_app; auto|].
        destruct Hxy as [->|[u ->]]; [exact Hd | apply descends_refill; exact Hd].
      * exists x. split; [apply in_or_app; auto | apply descends_refl; exact Hu].
    + intros x Hx. apply in_app_or in Hx as [Hx|Hx].
      * destruct (IH2 x Hx) as (a & Ha & Hd). exists a. split; [apply in_or_app; auto | exact Hd].
      * apply (reported_change _ _ _ _ _ Hs) in Hx as (y & u & q & Hy & Eq & Hq & ->).
        destruct (IH1 y Hy) as (_ & a & Ha & Hd). exists a. split; [apply in_or_app; auto|].
        unfold fill_event. destruct (Z.eqb_spec q (lo_rem y)); cbn [report_matches].
        -- cbn [done_fill fl_id fl_uid fl_side fl_price fl_ts fl_qty fl_avg fl_rem].
           destruct Hd as (? & ? & ? & ? & ? & ? & ?). repeat split; try congruence. lia.
        -- split; [apply descends_fill; exact Hd|]. rewrite after_fill_filled. split; [cbn [after_fill lo_rem]; lia|].
           pose proof (order_ok_filled _ (inv_ok _ _ HI y Hy)). lia.
Qed.

(** ** End of life *)
Definition gone (e : exchange) (i : Z) : Prop := i < ex_next_id e /\ ~ In i (ids (ex_active e)).

Lemma perm_ids_in (l l' : list limit_order) x i : Permutation l (x :: l') -> In i (ids l') -> In i (ids l).
Proof. intros Hp Hi. unfold ids in *. rewrite Hp. right; exact Hi. Qed.

Lemma gone_step c e o e' r i :
  Inv c e -> book_change c e e' o r -> gone e i -> gone e' i /\ ~ In i (map update_id (reported_in (o, r))).
Proof.
  intros HI H [Hi Hni]. pose proof (step_ids _ _ _ _ _ H) as [Hle _].
  split; [split; [lia|]|].
  - intros Hin. unfold ids in Hin. apply in_map_iff in Hin as (x & Hid & Hx).
    destruct (active_change _ _ _ _ _ H x Hx) as [(y & Hy & Hxy)|[Hacc Hu]].
    + apply Hni. unfold ids. assert (lo_id y = i) by (destruct Hxy as [->|[u ->]]; [exact Hid | rewrite refill_id in Hid; exact Hid]).
      subst i. rewrite <- H0. apply in_map; exact Hy.
    + pose proof (step_ids _ _ _ _ _ H) as [_ Hs].
      assert (In i (issued_in (o, r))) by (unfold issued_in; destruct o, r as [[]|]; try contradiction; cbn in *; destruct Hacc as [->|[]]; auto).
      destruct Hs as [E|[E _]]; rewrite E in H0; [contradiction|]. destruct H0 as [<-|[]]. lia.
  - intros Hin. apply in_map_iff in Hin as (x & Hid & Hx).
    apply (reported_change _ _ _ _ _ H) in Hx as (y & u & q & Hy & _ & _ & ->).
    rewrite fill_event_id in Hid. apply Hni. rewrite <- Hid. apply in_map; exact Hy.
Qed.

Lemma nodup_perm_notin (l l' : list limit_order) x :
  NoDup (ids l) -> Permutation l (x :: l') -> ~ In (lo_id x) (ids l').
Proof.
  intros Hn Hp. assert (Hn' : NoDup (ids (x :: l'))).
  { unfold ids in *. eapply Permutation_NoDup; [apply Permutation_map; exact Hp | exact Hn]. }
  inversion Hn'; assumption.
Qed.

Lemma finished_gone c e o e' r i :
  Inv c e -> book_change c e e' o r -> In i (finished_in (o, r)) -> gone e' i.
Proof.
  intros HI H Hin. pose proof (inv_nodup _ _ HI) as Hnd.
  destruct H as [o r Ha Hn Hf Ham Hcan Hmk Hupd|sd p q uid ord (-> & _) Ha Hn|b y Hfb Hp Hn
    |id sd p q uid y err _ _ Hg Hp Hn _ _ _|id sd p q uid y mid ord e1 _ _ Hg Hp Hn1 _ _ (-> & _) Ha Hn
    |u ru o r e0 e1 Ho Hu Hcf Hlf Hf Hp Hn]; try contradiction.
  - exfalso. destruct o; try contradiction.
    + destruct r as [[]|]; try contradiction. cbn in *. subst l. contradiction.
    + destruct r as [[]|]; try contradiction.
    + destruct (Ham id sd price qty uid eq_refl) as [[err ->] _]. contradiction.
  - cbn in Hin. destruct Hin as [<-|[]]. split.
    + rewrite Hn. assert (In y (ex_active e)) by (rewrite Hp; left; reflexivity). pose proof (inv_ids _ _ HI y H). lia.
    + eapply nodup_perm_notin; eassumption.
  - cbn in Hin. destruct Hin as [<-|[]]. apply get_by_id_in in Hg as [Hy <-]. split.
    + rewrite Hn. pose proof (inv_ids _ _ HI y Hy). lia.
    + rewrite Ha, ids_app. intros Hc. apply in_app_or in Hc as [Hc|[Hc|[]]].
      * eapply nodup_perm_notin; eassumption.
      * cbn in Hc. pose proof (inv_ids _ _ HI y Hy). lia.
  - destruct Ho as [[-> ->]|[-> ->]]; [|contradiction]. cbn in Hin. rewrite in_flat_map in Hin.
    destruct Hin as (ev & Hev & Hi). apply event_in in Hev as (y & q & Hy & E & ->).
    unfold fill_event in Hi. destruct (Z.eqb_spec q (lo_rem y)) as [->|]; [|contradiction]. cbn in Hi. destruct Hi as [<-|[]].
    split; [rewrite Hn; pose proof (inv_ids _ _ HI y Hy); lia|].
    unfold ids. rewrite Hp, map_map. intros Hc. apply in_map_iff in Hc as (z & Hid & Hz). rewrite refill_id in Hid.
    apply filter_In in Hz as [Hz Hnf]. assert (z = y) by (eapply nodup_ids_inj; eauto). subst z.
    rewrite fully_eq, E, Z.eqb_refl in Hnf. discriminate.
Qed.

Lemma finished_history_gone c ops e outs :
  0 <= c_max c <= 10000 -> history c ops e outs -> forall i, In i (finished ops outs) -> gone e i.
Proof.
  intros Hm. revert ops e outs. apply (history_ind c (fun e ops outs => forall i, In i (finished ops outs) -> gone e i)).
  - intros e0 _ i Hi. contradiction.
  - intros e ops outs o e' r Hh IH Hs i Hi. pose proof (history_inv _ _ _ _ Hm Hh) as HI.
    apply step_book in Hs; [|lia|exact HI].
    unfold finished in *. rewrite calls_snoc in Hi by (eapply history_length; eassumption).
    rewrite flat_map_app in Hi. cbn [flat_map] in Hi. rewrite app_nil_r in Hi. apply in_app_or in Hi as [Hi|Hi].
    + eapply gone_step; [exact HI | exact Hs | apply IH; exact Hi].
    + eapply finished_gone; eassumption.
Qed.

Lemma gone_run c ops2 : c_max c <= 10000 -> forall e e' outs2 i,
  Inv c e -> gone e i -> run c e ops2 = Done (e', outs2) ->
  gone e' i /\ ~ In i (map update_id (reported ops2 outs2)).
Proof.
  intros Hm. induction ops2 as [|o ops IH]; intros e e' outs2 i HI Hg H; cbn [run] in H.
  - inv. split; [exact Hg | cbn; tauto].
  - apply bind_done in H as [[e1 r] [H1 H]]. apply bind_done in H as [[e2 rs] [H2 H]]. inv.
    pose proof (step_inv _ _ _ _ _ Hm HI H1) as HI1. apply step_book in H1; [|exact Hm|exact HI].
    destruct (gone_step _ _ _ _ _ _ HI H1 Hg) as [Hg1 Hr1].
    destruct (IH _ _ _ _ HI1 Hg1 H2) as [Hg2 Hr2]. split; [exact Hg2|].
    unfold reported, calls in *. cbn [combine flat_map]. rewrite map_app. intros Hin.
    apply in_app_or in Hin as [Hin|Hin]; contradiction.
Qed.

Lemma gone_cancel c e i e' r :
  gone e i -> step c e (OpCancel (ByOrderId i)) = Done (e', r) -> e' = e /\ r = Err EOrderNoLongerActive.
Proof.
  intros [Hi Hni] H. cbn [step] in H. apply map_out_done in H as (r0 & H & ->). apply cancel_spec in H as [_ H].
  destruct r0 as [o|err].
  - exfalso. pose proof (ce_active _ _ _ _ _ H) as Hr. cbn in Hr. apply remove_id_spec in Hr as (Hin & Hid & _).
    apply Hni. rewrite <- Hid. apply in_map; exact Hin.
  - destruct H as (-> & _ & ->). split; [reflexivity|]. destruct (Z.ltb_spec i (ex_next_id e)); [reflexivity | lia].
Qed.
Lemma gone_amend c e i sd p q uid :
  0 < p -> 0 < q -> gone e i -> step c e (OpAmend i sd p q uid) = Done (e, Err EOrderNoLongerActive).
Proof.
  intros Hp Hq [Hi Hni]. cbn [step]. unfold limit_new. destruct (Z.leb_spec p 0); [lia|]. destruct (Z.leb_spec q 0); [lia|].
  unfold amend_limit_order. apply get_by_id_none in Hni. rewrite Hni.
  destruct (Z.ltb_spec i (ex_next_id e)); [reflexivity | lia].
Qed.

Lemma finished_never_back c ops1 e1 outs1 i ops2 e2 outs2 :
  0 <= c_max c <= 10000 -> history c ops1 e1 outs1 -> In i (finished ops1 outs1) ->
  run c e1 ops2 = Done (e2, outs2) ->
  ~ In i (map lo_id (ex_active e2)) /\ ~ In i (map update_id (reported ops2 outs2)) /\
  (forall e3 r, step c e2 (OpCancel (ByOrderId i)) = Done (e3, r) -> e3 = e2 /\ r = Err EOrderNoLongerActive) /\
  (forall sd p q uid, 0 < p -> 0 < q ->
     step c e2 (OpAmend i sd p q uid) = Done (e2, Err EOrderNoLongerActive)).
Proof.
  intros Hm Hh Hi Hr. pose proof (history_inv _ _ _ _ Hm Hh) as HI.
  pose proof (finished_history_gone _ _ _ _ Hm Hh i Hi) as Hg.
  destruct (gone_run c ops2 ltac:(lia) _ _ _ _ HI Hg Hr) as [Hg2 Hrep].
  split; [apply Hg2|]. split; [exact Hrep|]. split.
  - intros. eapply gone_cancel; eassumption.
  - intros. apply gone_amend; assumption.
Qed.

(** ** Reported updates *)
Lemma find_event c u l o q :
  NoDup (ids l) -> In o l -> fillq c u o = Some q ->
  find (fun x => update_id x =? lo_id o) (flat_map (event c u) l) = Some (fill_event (c_scale c) o q (update_ts u)).
Proof.
  induction l as [|a l IH]; intros Hn Hin E; [contradiction|]. inversion Hn as [|? ? Hx Hb]; subst.
  cbn [flat_map]. rewrite event_eq. destruct Hin as [->|Hin].
  - rewrite E. cbn. rewrite fill_event_id, Z.eqb_refl. reflexivity.
  - assert (lo_id a <> lo_id o) by (intros Heq; apply Hx; rewrite Heq; apply in_map; exact Hin).
    destruct (fillq c u a); cbn; [|auto]. rewrite fill_event_id.
    destruct (Z.eqb_spec (lo_id a) (lo_id o)); [contradiction | auto].
Qed.

Lemma find_no_event c u l o :
  NoDup (ids l) -> In o l -> fillq c u o = None ->
  find (fun x => update_id x =? lo_id o) (flat_map (event c u) l) = None.
Proof.
  intros Hn Hin E. destruct (find _ _) as [x|] eqn:F; [|reflexivity]. exfalso.
  apply find_some in F as [F1 F2]. apply event_in in F1 as (y & q & Hy & Ey & ->).
  rewrite fill_event_id in F2. assert (y = o) by (eapply nodup_ids_inj; [exact Hn|exact Hy|exact Hin|lia]). congruence.
Qed.

Lemma apply_events c u l :
  NoDup (ids l) ->
  apply_updates (flat_map (event c u) l) l = map (refill c u) (filter (fun x => negb (fully c u x)) l).
Proof.
  intros Hn. unfold apply_updates. set (us := flat_map (event c u) l).
  assert (H : forall l', (forall x, In x l' -> In x l) ->
    flat_map (apply_update us) l' = map (refill c u) (filter (fun x => negb (fully c u x)) l')).
  { induction l' as [|a l' IH]; intros Hs; [reflexivity|]. cbn [flat_map filter]. rewrite IH by (intros; apply Hs; right; assumption).
    unfold apply_update at 1. assert (Ha : In a l) by (apply Hs; left; reflexivity).
    rewrite (fully_eq c u a). destruct (fillq c u a) as [q|] eqn:E.
    - unfold us. rewrite (find_event _ _ _ _ _ Hn Ha E). unfold fill_event.
      destruct (q =? lo_rem a); cbn [negb map app]; [reflexivity|]. rewrite refill_eq, E. reflexivity.
    - unfold us. rewrite (find_no_event _ _ _ _ Hn Ha E). cbn [negb map app]. rewrite refill_eq, E. reflexivity. }
  apply H. auto.
Qed.

Lemma events_nodup c u l : NoDup (ids l) -> NoDup (map update_id (flat_map (event c u) l)).
Proof.
  induction l as [|a l IH]; intros Hn; [constructor|]. inversion Hn as [|? ? Hx Hb]; subst.
  cbn [flat_map]. rewrite map_app, event_eq. destruct (fillq c u a) as [q|]; cbn; [|auto].
  constructor; [|auto]. rewrite fill_event_id. intros Hc. apply in_map_iff in Hc as (x & Hid & Hx').
  apply event_in in Hx' as (y & q' & Hy & _ & ->). rewrite fill_event_id in Hid.
  apply Hx. rewrite <- Hid. apply in_map; exact Hy.
Qed.

Lemma apply_nil l : apply_updates [] l = l.
Proof. unfold apply_updates. induction l as [|a l IH]; [reflexivity|]. cbn. f_equal. exact IH. Qed.

Lemma updates_exact c e ru e' l :
  0 <= c_max c <= 10000 -> reachable c e -> step c e (OpUpdate ru) = Done (e', Ok (OutUpdates l)) ->
  NoDup (map update_id l) /\
  (forall u, In u l -> In (update_id u) (map lo_id (ex_active e))) /\
  Permutation (ex_active e') (apply_updates l (ex_active e)) /\
  (forall o, In (PartiallyFilled o) l -> In o (ex_active e')).
Proof.
  intros Hm Hr H. pose proof (reachable_inv _ _ Hm Hr) as HI. apply step_book in H; [|lia|exact HI].
  inversion H as [o r Ha Hn Hf _ Hcan Hmk Hupd E1 E2|sd p q uid ord (-> & _) Ha Hn E1|b y Hfb Hp Hn E1
    |id sd p q uid y err _ _ Hg Hp Hn _ _ _ E1|id sd p q uid y mid ord e1 _ _ Hg Hp Hn1 _ _ (-> & _) Ha Hn E1
    |u ru' o r e0 e1 Ho Hu Hcf Hlf Hf Hp Hn E1 E2]; subst.
  - cbn in Hf. subst l. rewrite apply_nil, Ha. repeat split; try contradiction; [constructor | reflexivity].
  - destruct Ho as [[E1 E2]|[E1 _]]; [|discriminate]. injection E2 as ->.
    pose proof (inv_nodup _ _ HI) as Hnd.
    split; [apply events_nodup; exact Hnd|]. split; [|split].
    + intros x Hx. apply event_in in Hx as (y & q & Hy & _ & ->). rewrite fill_event_id. apply in_map; exact Hy.
    + rewrite apply_events by exact Hnd. exact Hp.
    + intros o Ho. apply event_in in Ho as (y & q & Hy & Ey & E). unfold fill_event in E.
      destruct (q =? lo_rem y) eqn:Eq; [discriminate|]. injection E as ->. rewrite Hp.
      apply in_map_iff. exists y. rewrite refill_eq, Ey. split; [reflexivity|]. apply filter_In. split; [exact Hy|].
      rewrite fully_eq, Ey, Eq. reflexivity.
Qed.

(** ** Resting orders respected the filters *)
Lemma resting_valid c ops e outs :
  0 <= c_max c <= 10000 -> history c ops e outs ->
  forall a, In a (accepted_orders ops outs) ->
    validate_order_quantity (ct_qf (c_spec c)) (lo_rem a) = Done (Ok tt) /\
    exists m, validate_limit_price (c_scale c) (ct_pf (c_spec c)) (lo_price a) m = Done (Ok tt).
Proof.
  intros Hm. revert ops e outs. apply (history_ind c (fun e ops outs => forall a, In a (accepted_orders ops outs) ->
    validate_order_quantity (ct_qf (c_spec c)) (lo_rem a) = Done (Ok tt) /\
    exists m, validate_limit_price (c_scale c) (ct_pf (c_spec c)) (lo_price a) m = Done (Ok tt))).
  - intros. contradiction.
  - intros e ops outs o e' r Hh IH Hs a Ha. pose proof (history_inv _ _ _ _ Hm Hh) as HI.
    apply step_book in Hs; [|lia|exact HI].
    unfold accepted_orders in *. rewrite calls_snoc in Ha by (eapply history_length; eassumption).
    rewrite flat_map_app in Ha. cbn [flat_map] in Ha. rewrite app_nil_r in Ha. apply in_app_or in Ha as [Ha|Ha]; [auto|].
    destruct Hs as [o r _ Hn Hf Ham Hcan Hmk Hupd|sd p q uid ord (-> & _ & _ & Hv & Hp & _) _ Hn|b y Hfb Hp Hn
    |id sd p q uid y err _ _ Hg Hp Hn _ _ _|id sd p q uid y mid ord e1 _ _ Hg Hpm Hn1 _ _ (-> & _ & _ & Hv & Hp & _) _ Hn
    |u ru o r e0 e1 Ho Hu Hcf Hlf Hf Hp Hn]; try contradiction.
    + exfalso. destruct o; try contradiction; destruct r as [[]|]; contradiction.
    + destruct Ha as [<-|[]]. cbn. split; [exact Hv | eauto].
    + destruct Ha as [<-|[]]. cbn. split; [exact Hv | eauto].
    + exfalso. destruct Ho as [[-> ->]|[-> ->]]; contradiction.
Qed.
