(** Statements about order entry, assembled for the properties. *)
From Coq Require Import Permutation.
From Verif Require Import ProofBase BookLemmas StepLemmas FillLemmas OpLemmas Inv Spec SpecBook SpecRules SpecMargin SpecConfig SpecMarket SpecPanic
  SpecEntry Scenario ScenarioPanic ScenarioEntry FilterProof MarginProof EntryProof OrderProof BookProof SoundProof PanicProof PanicCor LimitProof LiqProof TotalProof ManyProof PanicFacts.

Lemma reserved_by c e o e' r :
  is_entry o = true -> step c e o = Done (e', r) -> reserved e e' (order_margin_of e' - order_margin_of e).
Proof.
  intros Ho H. destruct (entry_totals _ _ _ _ _ Ho H) as (H1 & H2 & H3 & H4). destruct (entry_move _ _ _ _ _ Ho H) as (_ & _ & H5).
  unfold reserved. repeat split; try assumption; lia.
Qed.

Lemma reachable_next c e o e' r : reachable c e -> step c e o = Done (e', r) -> reachable c e'.
Proof. intros (ops & outs & H) Hs. exists (ops ++ [o]), (outs ++ [r]). eapply history_snoc; eassumption. Qed.

(** ** C10 *)
Lemma limit_accepted c e sd p q uid e' o :
  0 <= c_max c <= 10000 -> reachable c e -> step c e (OpLimit sd p q uid) = Done (e', Ok (OutLimit o)) ->
  o = fresh_order e sd p q uid /\ 0 < p /\ 0 < q /\ ~ crosses_quote e sd p /\
  ex_active e' = ex_active e ++ [o] /\ ex_next_id e' = ex_next_id e + 1 /\
  reserved e e' (order_margin_of e' - order_margin_of e).
Proof.
  intros Hm R H. pose proof (reserved_by _ _ (OpLimit sd p q uid) _ _ eq_refl H) as Hres. pose proof (reachable_inv _ _ Hm R) as I.
  cbn [step] in H. destruct (limit_new sd p q uid) as [l|] eqn:El; [|discriminate].
  apply map_out_done in H as (r & H & Hr). destruct r as [o'|]; [|discriminate]. injection Hr as <-.
  apply limit_new_ok in El as [N ->].
  pose proof (submit_limit_spec _ _ _ _ _ H) as Hs. cbv zeta in Hs.
  destruct (submit_limit_book _ _ _ _ _ (proj2 Hm) I N H) as [_ [(err & E & _)|(E & Ha & Hn & _)]]; [discriminate|].
  injection E as ->. destruct Hs as [(err & E & _)|(_ & _ & _ & Hk & _)]; [discriminate|].
  split; [reflexivity|]. split; [apply N|]. split; [apply N|]. split; [|auto].
  intros Hc. assert (marketable (ex_ms e) (limit_into_pending {| nl_uid := uid; nl_side := sd; nl_price := p; nl_rem := q |} (ex_next_id e) (ms_ts (ex_ms e))) = true) as E.
  { unfold marketable, crosses_quote in *. cbn. destruct sd; lia. }
  rewrite E in Hk. discriminate.
Qed.

(** ** C11 *)
Lemma find_by_none b by_ : remove_with b by_ = None -> forall o, In o b -> ~ meant by_ o.
Proof.
  intros H o Ho Hm. destruct by_ as [i|u]; cbn in H, Hm.
  - apply remove_id_none in H. apply H. rewrite <- Hm. apply in_map. exact Ho.
  - unfold remove_by_user_order_id in H. apply remove_by_none in H. apply (find_none _ _ H) in Ho. lia.
Qed.

Lemma cancel_exact c e b e' r :
  0 <= c_max c <= 10000 -> reachable c e -> step c e (OpCancel b) = Done (e', r) ->
  match r with
  | Ok (OutLimit o) =>
      In o (ex_active e) /\ meant b o /\ Permutation (ex_active e) (o :: ex_active e') /\
      (exists m, 0 <= m /\ reserved e e' (- m)) /\ ex_next_id e' = ex_next_id e
  | Err err =>
      e' = e /\ (forall o, In o (ex_active e) -> ~ meant b o) /\
      err = match b with
            | ByOrderId i => if i <? ex_next_id e then EOrderNoLongerActive else EOrderIdNotFound i
            | ByUserOrderId _ => EUserOrderIdNotFound
            end
  | _ => False
  end.
Proof.
  intros Hm R H. pose proof (reserved_by _ _ (OpCancel b) _ _ eq_refl H) as Hres. cbn [step] in H.
  apply map_out_done in H as (rr & H & ->). apply cancel_spec in H as [_ H]. destruct rr as [o|err]; cbn [map_result].
  - destruct (remove_with_spec _ _ _ _ (ce_active _ _ _ _ _ H)) as (Hf & Hin & Hp). split; [exact Hin|].
    split; [destruct b; cbn in Hf |- *; [apply get_by_id_in in Hf; apply Hf | apply find_some in Hf; lia]|]. split; [exact Hp|].
    split; [|apply (ce_next _ _ _ _ _ H)].
    exists (order_margin_of e - order_margin_of e'). split.
    + destruct (ce_acc _ _ _ _ _ H) as (n & _ & Hle & Ha). change (order_margin_of e) with (bal (ex_acc e) ORDER_MARGIN).
      change (order_margin_of e') with (bal (ex_acc e') ORDER_MARGIN). rewrite Ha. destruct (Z.ltb_spec n (bal (ex_acc e) ORDER_MARGIN)); [|lia].
      rewrite bal_transfer by discriminate. unfold delta; cbn. lia.
    + replace (- (order_margin_of e - order_margin_of e')) with (order_margin_of e' - order_margin_of e) by lia. exact Hres.
  - destruct H as (-> & Hn & ->). split; [reflexivity|]. split; [apply find_by_none; exact Hn | reflexivity].
Qed.

Lemma cancel_errors c ops e outs i e' err :
  0 <= c_max c <= 10000 -> history c ops e outs -> step c e (OpCancel (ByOrderId i)) = Done (e', Err err) ->
  (In i (issued_ids ops outs) -> err = EOrderNoLongerActive) /\ (ex_next_id e <= i -> err = EOrderIdNotFound i).
Proof.
  intros Hm H Hs. destruct (ids_increase _ _ _ _ Hm H) as [_ Hi].
  assert (R : reachable c e) by (exists ops, outs; exact H).
  destruct (cancel_exact _ _ _ _ _ Hm R Hs) as (_ & _ & ->).
  split; intros; [specialize (Hi i ltac:(assumption))|]; destruct (Z.ltb_spec i (ex_next_id e)); try reflexivity; lia.
Qed.

(** ** C12 *)
Lemma rejected_inert c e o e' err :
  0 <= c_max c <= 10000 -> reachable c e ->
  match o with OpMarket _ _ _ | OpLimit _ _ _ _ => True | _ => False end ->
  step c e o = Done (e', Err err) ->
  unchanged e e' /\ ex_next_id e <= ex_next_id e' <= ex_next_id e + 1.
Proof.
  intros Hm R Ho H. pose proof (reachable_inv _ _ Hm R) as I. destruct o as [|sd q uid|sd p q uid| | |]; try contradiction; cbn [step] in H.
  - destruct (market_new sd q uid) as [m|]; [|inv; unfold unchanged; repeat split; lia].
    apply map_out_done in H as (rr & H & Hr). destruct rr; [discriminate|]. apply submit_market_spec in H as (Hc & _ & Hn).
    destruct Hc as (H1 & H2 & H3 & H4 & H5 & _). split; [repeat split; assumption|].
    destruct Hn as [(? & _ & _ & ->)|(? & _ & -> & _)]; lia.
  - destruct (limit_new sd p q uid) as [l|] eqn:El; [|inv; unfold unchanged; repeat split; lia].
    apply map_out_done in H as (rr & H & Hr). destruct rr; [discriminate|]. apply limit_new_ok in El as [N _].
    destruct (submit_limit_book _ _ _ _ _ (proj2 Hm) I N H) as [_ [(? & _ & Hc & Hn)|(E & _)]]; [|discriminate].
    destruct Hc as (H1 & H2 & H3 & H4 & H5 & _). split; [repeat split; assumption | exact Hn].
Qed.

(** ** C13 *)
Lemma round_trip c e sd p q uid e1 o :
  valid_config c -> reachable c e -> in_sync c e -> step c e (OpLimit sd p q uid) = Done (e1, Ok (OutLimit o)) ->
  exists e2, step c e1 (OpCancel (ByOrderId (lo_id o))) = Done (e2, Ok (OutLimit o)) /\
    ex_active e2 = ex_active e /\ reserved e e2 0.
Proof.
  intros V R Hs H.
  destruct (limit_accepted _ _ _ _ _ _ _ _ (vc_max _ V) R H) as (Ho & Hp & Hq & _ & Hact & Hn & _).
  pose proof (reachable_sound _ _ V R) as S. pose proof (step_sound _ _ _ _ _ V S H) as S1.
  pose proof (entry_sync _ _ (OpLimit sd p q uid) _ _ V R Logic.I Hs H) as Hs1.
  assert (Hfresh : ~ In (lo_id o) (ids (ex_active e))) by (rewrite Ho; apply (inv_fresh _ _ (so_inv _ _ S))).
  assert (Hrem : remove_with (ex_active e1) (ByOrderId (lo_id o)) = Some (o, ex_active e)) by (cbn; rewrite Hact; apply remove_id_app; exact Hfresh).
  assert (Hpos : ex_pos e1 = ex_pos e) by apply (entry_move _ _ (OpLimit sd p q uid) _ _ eq_refl H).
  assert (Hsafe : safe [] (cancel_limit_order c e1 (ByOrderId (lo_id o)))).
  { pose proof Hs1 as Hs1'. apply (sync_req _ _ V S1) in Hs1'. apply cancel_safe_gen; [assumption | assumption | contradiction|].
    intros x act' Hx Hlt. exfalso. rewrite Hrem in Hx. injection Hx as <- <-. rewrite Hs1', Hact in Hlt.
    pose proof (req_snoc c (ex_active e) o (ex_pos e1) (vc_scale _ V) (proj1 (vc_imr _ V))) as Hr. rewrite <- Hact in Hr, Hlt.
    specialize (Hr (inv_good _ _ (so_inv _ _ S1))). lia. }
  apply safe_nil_done in Hsafe as [[e2 r] Hc]. pose proof (cancel_spec _ _ _ _ _ Hc) as [_ Hce].
  destruct r as [x|err]; [|destruct Hce as (_ & E & _); rewrite Hrem in E; discriminate].
  pose proof (ce_active _ _ _ _ _ Hce) as Ex. rewrite Hrem in Ex. injection Ex as <- Eact.
  exists e2. assert (Hst : step c e1 (OpCancel (ByOrderId (lo_id o))) = Done (e2, Ok (OutLimit o))) by (cbn [step]; rewrite Hc; reflexivity).
  split; [exact Hst|]. split; [symmetry; exact Eact|].
  pose proof (reserved_by _ _ (OpLimit sd p q uid) _ _ eq_refl H) as R1. pose proof (reserved_by _ _ (OpCancel (ByOrderId (lo_id o))) _ _ eq_refl Hst) as R2.
  assert (Hbal : order_margin_of e2 = order_margin_of e).
  { destruct (cancel_effect_bal _ _ _ _ _ V S1 Hce) as [Hb _]. apply (sync_req _ _ V S) in Hs.
    change (order_margin_of e2) with (bal (ex_acc e2) ORDER_MARGIN). change (order_margin_of e) with (bal (ex_acc e) ORDER_MARGIN).
    rewrite Hb, Hs, <- Eact, (ce_pos _ _ _ _ _ Hce), Hpos. reflexivity. }
  destruct R1 as (A1 & A2 & A3 & A4 & A5 & A6), R2 as (B1 & B2 & B3 & B4 & B5 & B6). unfold reserved. repeat split; try congruence; lia.
Qed.

(** ** C14 *)
Lemma amend_exact c e i sd p q uid e' r :
  0 <= c_max c <= 10000 -> reachable c e -> 0 < p -> 0 < q -> step c e (OpAmend i sd p q uid) = Done (e', r) ->
  (forall o, In o (ex_active e) -> lo_id o <> i) /\ e' = e /\
    r = Err (if i <? ex_next_id e then EOrderNoLongerActive else EOrderIdNotFound i) \/
  exists o e1, In o (ex_active e) /\ lo_id o = i /\ step c e (OpCancel (ByOrderId i)) = Done (e1, Ok (OutLimit o)) /\
    if leaves_of o q <=? 0 then e' = e1 /\ r = Err EAmendQtyAlreadyFilled
    else step c e1 (OpLimit sd p (leaves_of o q) uid) = Done (e', r).
Proof.
  intros Hm R Hp Hq H. cbn [step] in H. unfold limit_new in H. destruct (Z.leb_spec p 0); [lia|]. destruct (Z.leb_spec q 0); [lia|].
  apply map_out_done in H as (rr & H & ->). unfold amend_limit_order in H. destruct (get_by_id (ex_active e) i) as [o|] eqn:Eg.
  2:{ left. injection H as <- <-. split; [|auto]. intros o Ho E. apply get_by_id_none in Eg. apply Eg. rewrite <- E. apply in_map; exact Ho. }
  right. apply get_by_id_in in Eg as [Hin Hid]. exists o. apply bind_done in H as [t [Ht H]].
  assert (t = lo_rem o + lo_filled_qty o) as ->.
  { unfold lo_total_quantity in Ht. apply bind_done in Ht as [? [_ Ht]]. injection Ht as <-. unfold lo_filled_qty. destruct (lo_filled o); lia. }
  cbn [nl_rem nl_uid nl_side nl_price] in H. fold (leaves_of o q) in H.
  assert (Hcan : forall e1 rr0, cancel_limit_order c e (ByOrderId i) = Done (e1, rr0) ->
    step c e (OpCancel (ByOrderId i)) = Done (e1, map_result OutLimit rr0) /\ forall x, rr0 = Ok x -> x = o).
  { intros e1 rr0 Hc. split; [cbn [step]; rewrite Hc; reflexivity|]. intros y ->. apply cancel_spec in Hc as [_ Hc].
    destruct (remove_with_spec _ _ _ _ (ce_active _ _ _ _ _ Hc)) as (Hf & _). cbn in Hf. apply get_by_id_in in Hf as [Hx Hi].
    eapply nodup_ids_inj; [apply (inv_nodup _ _ (reachable_inv _ _ Hm R)) | exact Hx | exact Hin | congruence]. }
  assert (Herr : forall e1 er, cancel_limit_order c e (ByOrderId i) <> Done (e1, Err er)).
  { intros e1 er Hc. apply cancel_spec in Hc as [_ (_ & Hn & _)]. eapply find_by_none; [exact Hn | exact Hin | exact Hid]. }
  destruct (Z.leb_spec (leaves_of o q) 0) as [Hl|Hl].
  - apply bind_done in H as [[e1 rc] [Hc H]]. destruct rc as [y|er]; [|destruct (Herr _ _ Hc)]. injection H as <- <-.
    destruct (Hcan _ _ Hc) as [Hst Hx]. specialize (Hx y eq_refl). subst y. exists e1. split; [exact Hin|]. split; [exact Hid|]. split; [exact Hst | auto].
  - apply bind_done in H as [no [Hno H]]. unfold set_remaining_quantity in Hno. apply bind_done in Hno as [? [_ Hno]]. injection Hno as <-.
    apply bind_done in H as [[e1 rc] [Hc H]]. destruct rc as [y|er]; [|destruct (Herr _ _ Hc)].
    destruct (Hcan _ _ Hc) as [Hst Hx]. specialize (Hx y eq_refl). subst y. exists e1. split; [exact Hin|]. split; [exact Hid|]. split; [exact Hst|].
    cbn [step]. unfold limit_new. destruct (Z.leb_spec p 0); [lia|]. destruct (Z.leb_spec (leaves_of o q) 0); [lia|].
    cbn [nl_uid nl_side nl_price] in H. rewrite H. reflexivity.
Qed.

(** Whatever the reason for the rejection, the order is gone. *)
Lemma amend_outcome c e i sd p q uid e' r o :
  0 <= c_max c <= 10000 -> reachable c e -> 0 < p -> 0 < q -> In o (ex_active e) -> lo_id o = i ->
  step c e (OpAmend i sd p q uid) = Done (e', r) ->
  ~ In i (map lo_id (ex_active e')) /\
  match r with
  | Ok (OutLimit n) => 0 < leaves_of o q /\ n = fresh_order e sd p (leaves_of o q) uid /\
      Permutation (ex_active e ++ [n]) (o :: ex_active e')
  | Err err => (err = EAmendQtyAlreadyFilled <-> leaves_of o q <= 0) /\ Permutation (ex_active e) (o :: ex_active e')
  | _ => False
  end.
Proof.
  intros Hm R Hp Hq Hin Hid H. pose proof (reachable_inv _ _ Hm R) as I. pose proof (inv_nodup _ _ I) as Hnd.
  assert (Hgone : forall b, Permutation (ex_active e) (o :: b) -> ~ In i (ids b)).
  { intros b Hb. assert (NoDup (ids (o :: b))) as Hn.
    { eapply Permutation_NoDup; [apply Permutation_map, Hb | exact Hnd]. }
    cbn in Hn. rewrite <- Hid. inversion Hn; assumption. }
  destruct (amend_exact _ _ _ _ _ _ _ _ _ Hm R Hp Hq H) as [(Hno & _)|(x & e1 & Hx & Hxi & Hc & Hr)]; [destruct (Hno o Hin Hid)|].
  assert (x = o) as -> by (eapply nodup_ids_inj; [exact Hnd | exact Hx | exact Hin | congruence]).
  destruct (cancel_exact _ _ _ _ _ Hm R Hc) as (_ & _ & Hperm & (m & _ & (_ & _ & _ & _ & _ & Hms)) & Hnext).
  assert (R1 : reachable c e1) by (eapply reachable_next; eassumption).
  destruct (Z.leb_spec (leaves_of o q) 0) as [Hl|Hl].
  - destruct Hr as [-> ->]. split; [apply Hgone; exact Hperm|]. split; [tauto | exact Hperm].
  - pose proof Hr as Hr0. destruct r as [[l|m0|n|]|err].
    1,2,4: exfalso; cbn [step] in Hr; destruct (limit_new _ _ _ _); [|discriminate]; apply map_out_done in Hr as (rr & _ & Hr); destruct rr; discriminate.
    + apply (limit_accepted _ _ _ _ _ _ _ _ Hm R1) in Hr as (-> & _ & _ & _ & Hact & _).
      assert (E : fresh_order e1 sd p (leaves_of o q) uid = fresh_order e sd p (leaves_of o q) uid) by (unfold fresh_order; rewrite Hnext, Hms; reflexivity).
      rewrite E in *. split; [|split; [lia|]; split; [reflexivity|]].
      * rewrite Hact. change (map lo_id) with ids. rewrite ids_app, in_app_iff. intros [Hi|[Hi|[]]]; [eapply Hgone; [exact Hperm | exact Hi]|].
        cbn in Hi. apply (inv_fresh _ _ I). rewrite Hi, <- Hid. apply in_map. exact Hin.
      * rewrite Hact, Hperm. reflexivity.
    + pose proof (rejected_inert _ _ (OpLimit sd p (leaves_of o q) uid) _ _ Hm R1 Logic.I Hr) as ((_ & _ & Hact & _) & _). rewrite Hact.
      split; [apply Hgone; exact Hperm|]. split; [|exact Hperm]. split; [|lia]. intros ->. exfalso.
      cbn [step] in Hr0. destruct (limit_new sd p (leaves_of o q) uid) as [nl|] eqn:En; [|discriminate]. apply map_out_done in Hr0 as (rr & Hr0 & Er).
      apply limit_new_ok in En as [N _].
      destruct (submit_limit_accept _ _ _ _ _ (proj2 Hm) (reachable_inv _ _ Hm R1) N Hr0) as [(er & -> & _ & _ & _ & _ & Hne)|(x & -> & _)]; cbn in Er; congruence.
Qed.

(** A rejected amendment: the new price is too far from the mark price, and the order is lost. *)
Lemma amend_loses dbg : exists e outs e' err,
  history (L dbg) resting_buy e outs /\ map lo_id (ex_active e) = [0] /\
  step (L dbg) e (OpAmend 0 Buy (d 200) (d 1) 1) = Done (e', Err (EOrder err)) /\ ex_active e' = [].
Proof.
  destruct (play (L dbg) resting_buy) as [[e outs]|] eqn:E; [|destruct dbg; vm_compute in E; discriminate].
  exists e, outs. do 2 eexists. split; [apply play_history; exact E|].
  destruct dbg; vm_compute in E; injection E as <- <-; (split; [reflexivity|]); (split; [vm_compute; reflexivity|]); vm_compute; reflexivity.
Qed.

(** The statistics after a rejection. *)
Lemma rejected_quiet c e o e' err :
  match o with OpMarket _ _ _ | OpLimit _ _ _ _ => True | _ => False end ->
  step c e o = Done (e', Err err) ->
  ex_trig e' = ex_trig e /\ exists n, 0 <= n <= 1 /\ only_submissions (ex_trk e) (ex_trk e') n.
Proof.
  intros Ho H. destruct o as [|sd q uid|sd p q uid| | |]; try contradiction; cbn [step] in H.
  - destruct (market_new sd q uid) as [m|]; [|inv; split; [reflexivity|]; exists 0; unfold only_submissions; repeat split; lia].
    apply map_out_done in H as (rr & H & Hr). destruct rr; [discriminate|]. apply submit_market_spec in H as (Hc & Ht & _).
    split; [apply Hc|]. exists 1. rewrite Ht. unfold only_submissions; cbn. repeat split; lia.
  - destruct (limit_new sd p q uid) as [l|] eqn:El; [|inv; split; [reflexivity|]; exists 0; unfold only_submissions; repeat split; lia].
    apply map_out_done in H as (rr & H & Hr). destruct rr; [discriminate|]. apply submit_limit_spec in H as [(? & _ & Hc & Ht & _)|(_ & _ & _ & _ & a & Ha & E)].
    + split; [apply Hc|]. exists 1. rewrite Ht. unfold only_submissions; cbn. repeat split; lia.
    + destruct a; [discriminate|]. apply append_spec in Ha as (_ & [(-> & _) | (om' & r' & _ & -> & _)]); cbn;
      (split; [reflexivity|]); exists 1; unfold only_submissions; cbn; repeat split; lia.
Qed.

(** Concrete cases. *)
Lemma resting_cancels : exists e outs,
  history (L true) resting_buy e outs /\ in_sync (L true) e /\
  exists e' o, step (L true) e (OpCancel (ByUserOrderId 1)) = Done (e', Ok (OutLimit o)) /\ lo_price o = d 90 /\
    order_margin_of e = d 90 /\ order_margin_of e' = 0.
Proof. played (L true) resting_buy. split; [vm_compute; reflexivity|]. do 2 eexists. split; [vm_compute; reflexivity|]. vm_compute. repeat split. Qed.
Lemma resting_accepts : exists e outs,
  history (L true) resting_buy e outs /\
  (exists e' o, step (L true) e (OpLimit Sell (d 101) (d 1) 2) = Done (e', Ok (OutLimit o)) /\ length (ex_active e') = 2%nat) /\
  (exists e', step (L true) e (OpLimit Sell (d 100) (d 1) 2) = Done (e', Err (EOrder GoodTillCrossingRejectedOrder))) /\
  (exists e', step (L true) e (OpLimit Buy (d 99) (d 10) 2) = Done (e', Err (ERisk NotEnoughAvailableBalance))).
Proof.
  played (L true) resting_buy. split; [do 2 eexists; split; [vm_compute; reflexivity | reflexivity]|].
  split; eexists; vm_compute; reflexivity.
Qed.
Lemma partial_amends : exists e outs,
  history (L true) (resting_buy ++ [taker Sell 89 (d 1 / 2) 2]) e outs /\
  exists o, ex_active e = [o] /\ leaves_of o (d 3) = d 5 / 2 /\
  (exists e' n, step (L true) e (OpAmend 0 Buy (d 80) (d 3) 1) = Done (e', Ok (OutLimit n)) /\ lo_rem n = d 5 / 2) /\
  exists e', step (L true) e (OpAmend 0 Buy (d 80) (d 1 / 2) 1) = Done (e', Err EAmendQtyAlreadyFilled).
Proof.
  played (L true) (resting_buy ++ [taker Sell 89 (d 1 / 2) 2]). eexists. split; [reflexivity|]. split; [reflexivity|].
  split; [do 2 eexists; split; [vm_compute; reflexivity | reflexivity]|]. eexists. vm_compute. reflexivity.
Qed.
