(** The exact outcome of limit orders. *)
From Verif Require Import ProofBase BookLemmas StepLemmas FillLemmas OpLemmas Inv Spec SpecBook SpecRules SpecMargin SpecConfig SpecPanic SpecEntry
  LedgerProof FilterProof MarginProof EntryProof BookProof OrderProof SoundProof PanicProof PanicCor.

Lemma qty_error f q oe : qf_tick f <> 0 -> validate_order_quantity f q = Done (Err oe) -> In oe quantity_errors /\ ~ quantity_allowed f q.
Proof.
  intros Ht H. destruct (quantity_filter_exact f q Ht) as (v & E & Hv & _). rewrite H in E. injection E as <-.
  split; [|intros Hq; apply Hv in Hq; discriminate].
  rewrite (quantity_verdict _ _ Ht) in H. injection H as H. unfold quantity_errors. cbn.
  repeat match type of H with (if ?b then _ else _) = _ => destruct b end; try discriminate; injection H as <-; tauto.
Qed.
Lemma qty_fine f q : qf_tick f <> 0 -> validate_order_quantity f q = Done (Ok tt) -> quantity_allowed f q.
Proof. intros Ht H. destruct (quantity_filter_exact f q Ht) as (v & E & Hv & _). rewrite H in E. injection E as <-. apply Hv. reflexivity. Qed.

Lemma price_error s f p m oe :
  0 < s -> pf_tick f <> 0 -> 0 <= m -> 0 <= pf_up f -> 0 <= pf_down f ->
  validate_limit_price s f p m = Done (Err oe) -> In oe price_errors /\ ~ price_allowed s f m p.
Proof.
  intros Hs Ht Hm Hu Hd H. destruct (price_filter_exact s f p m Hs Ht Hm Hu Hd) as (v & E & Hv & _). rewrite H in E. injection E as <-.
  split; [|intros Hq; apply Hv in Hq; discriminate].
  rewrite (price_verdict _ _ _ _ Ht) in H. injection H as H. unfold price_errors. cbn.
  repeat match type of H with (if ?b then _ else _) = _ => destruct b end; try discriminate; injection H as <-; tauto.
Qed.
Lemma price_fine s f p m :
  0 < s -> pf_tick f <> 0 -> 0 <= m -> 0 <= pf_up f -> 0 <= pf_down f ->
  validate_limit_price s f p m = Done (Ok tt) -> price_allowed s f m p.
Proof. intros Hs Ht Hm Hu Hd H. destruct (price_filter_exact s f p m Hs Ht Hm Hu Hd) as (v & E & Hv & _). rewrite H in E. injection E as <-. apply Hv. reflexivity. Qed.

Lemma check_affordable c e o :
  valid_config c -> Sound c e -> 0 < lo_rem o -> 0 < lo_price o ->
  exists v, check_limit_order c (ex_pos e) o (bal (ex_acc e) WALLET) (ex_om e) = Done v /\
    (v = Ok tt /\ affordable c e o \/ v = Err NotEnoughAvailableBalance /\ ~ affordable c e o).
Proof.
  intros V S Hr Hp. pose proof (so_inv _ _ S) as I. pose proof (inv_good _ _ I) as Hg. pose proof (good_snoc _ _ Hg Hr Hp) as Hg'.
  unfold check_limit_order, affordable. rewrite (inv_books _ _ I), with_order_eq, !om_eq by (assumption || apply (inv_pos _ _ I)). cbn [bind].
  eexists. split; [reflexivity|]. change (wallet_of e) with (bal (ex_acc e) WALLET).
  destruct (Z.ltb_spec (bal (ex_acc e) WALLET + req c (ex_active e) (ex_pos e)) (req c (ex_active e ++ [o]) (ex_pos e))).
  - right. split; [reflexivity|]. intros A. specialize (A _ _ eq_refl eq_refl). lia.
  - left. split; [reflexivity|]. intros r r' E E'. injection E as <-. injection E' as <-. lia.
Qed.

Lemma marketable_crosses e sd p q uid :
  marketable (ex_ms e) (fresh_order e sd p q uid) = true <-> crosses_quote e sd p.
Proof. unfold marketable, crosses_quote, fresh_order. cbn. destruct sd; lia. Qed.

Lemma submit_verdict c e o e' r :
  valid_config c -> Sound c e -> sane c e -> nl_ok o -> submit_limit_order c e o = Done (e', r) ->
  limit_verdict c e (nl_side o) (nl_price o) (nl_rem o) (nl_uid o) r.
Proof.
  intros V S (Hb & Hk & Hu & Hd) N H. pose proof (so_inv _ _ S) as I.
  assert (Hmk : 0 <= mid_price (ex_ms e)) by (unfold mid_price; apply Z.quot_pos; lia).
  change (mid_price (ex_ms e)) with (mark e) in *.
  assert (Hf : limit_into_pending o (ex_next_id e) (ms_ts (ex_ms e)) = fresh_order e (nl_side o) (nl_price o) (nl_rem o) (nl_uid o)) by (destruct o; reflexivity).
  pose proof (submit_limit_book _ _ _ _ _ (proj2 (vc_max _ V)) I N H) as [_ Hbk].
  destruct (check_affordable c e (limit_into_pending o (ex_next_id e) (ms_ts (ex_ms e))) V S) as (v & Hv & Hva); try apply N.
  apply submit_limit_spec in H. cbv zeta in H. rewrite Hv, Hf in H. rewrite Hf in Hva, Hbk.
  change (mid_price (ex_ms e)) with (mark e) in H.
  destruct H as [(err & -> & _ & _ & Hcase) | (Hq & Hp & Hr & Hm & ra & Ha & ->)].
  - destruct Hcase as [(oe & -> & _ & [Hq|[Hq Hp]])|(_ & Hq & Hp & [(re & -> & Hr)|(-> & Hm & Hr)])].
    + apply qty_error in Hq as [H1 H2]; [|apply (vc_qtick _ V)]. apply lv_quantity; assumption.
    + apply qty_fine in Hq; [|apply (vc_qtick _ V)]. apply price_error in Hp as [H1 H2]; try assumption; [|apply (vc_scale _ V)|apply (vc_ptick _ V)].
      apply lv_price; assumption.
    + apply qty_fine in Hq; [|apply (vc_qtick _ V)]. apply price_fine in Hp; try assumption; [|apply (vc_scale _ V)|apply (vc_ptick _ V)].
      injection Hr as ->. destruct Hva as [[Hx _]|[Hx Ha]]; [discriminate|]. injection Hx as ->. apply lv_funds; assumption.
    + apply qty_fine in Hq; [|apply (vc_qtick _ V)]. apply price_fine in Hp; try assumption; [|apply (vc_scale _ V)|apply (vc_ptick _ V)].
      injection Hr as ->. destruct Hva as [[_ Ha]|[Hx _]]; [|discriminate]. apply marketable_crosses in Hm. apply lv_cross; assumption.
  - apply qty_fine in Hq; [|apply (vc_qtick _ V)]. apply price_fine in Hp; try assumption; [|apply (vc_scale _ V)|apply (vc_ptick _ V)].
    injection Hr as ->. destruct Hva as [[_ Haf]|[Hx _]]; [|discriminate].
    assert (Hnc : ~ crosses_quote e (nl_side o) (nl_price o)).
    { intros C. apply (marketable_crosses e _ _ (nl_rem o) (nl_uid o)) in C. congruence. }
    destruct ra as [[]|err].
    + destruct Hbk as [(err & Hx & _)|(_ & _ & _ & _ & _ & Hl)]; [discriminate|]. apply lv_accept; assumption.
    + apply append_spec in Ha as (-> & [(_ & _ & Hc)|(om' & r' & Hom & _ & _ & Hc)]).
      * cbn in Hc. rewrite (inv_books _ _ I) in Hc. apply lv_full; assumption.
      * cbn in Hc. apply lv_full; try assumption. pose proof (vc_max _ V). unfold active_capacity in Hc. lia.
Qed.

Lemma limit_decision c e sd p q uid e' r :
  valid_config c -> reachable c e -> sane c e -> 0 < p -> 0 < q -> step c e (OpLimit sd p q uid) = Done (e', r) ->
  exists r', r = map_result OutLimit r' /\ limit_verdict c e sd p q uid r'.
Proof.
  intros V R Hs Hp Hq H. cbn [step] in H. destruct (limit_new sd p q uid) as [l|] eqn:E.
  - apply map_out_done in H as (rr & H & ->). apply limit_new_ok in E as [N ->]. exists rr. split; [reflexivity|].
    apply (submit_verdict c e _ e' rr V (reachable_sound _ _ V R) Hs N H).
  - unfold limit_new in E. destruct (Z.leb_spec p 0); [lia|]. destruct (Z.leb_spec q 0); [lia|]. discriminate.
Qed.

(** The verdicts exclude each other. *)
Lemma verdict_unique c e sd p q uid r r' :
  limit_verdict c e sd p q uid r -> limit_verdict c e sd p q uid r' ->
  r = r' \/ exists oe oe', r = Err (EOrder oe) /\ r' = Err (EOrder oe').
Proof.
  intros H H'. destruct H; destruct H'; try contradiction; try lia; auto; right; eauto.
Qed.
