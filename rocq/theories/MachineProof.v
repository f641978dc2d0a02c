(** The exchange computes what the reference machine computes. *)
From Coq Require Import Permutation.
From Verif Require Import ProofBase BookLemmas StepLemmas FillLemmas OpLemmas Inv Spec SpecBook SpecRules SpecMargin SpecConfig SpecMarket SpecPanic SpecFlow
  SpecEntry SpecMachine LedgerProof FeeProof FilterProof MarginProof BookProof OrderProof CoreProof SoundProof PanicProof PanicCor MarketProof LiqProof
  FlowProof FlowCor HealthProof.

(** ** Orders *)
Lemma place_insert sd x l :
  place sd x l = insert_by (fun o : Z * Z => match sd with Buy => - fst o | Sell => fst o end) x l.
Proof.
  induction l as [|y l IH]; cbn [place insert_by]; [reflexivity|]. unfold better. rewrite IH.
  destruct sd.
  - destruct (Z.ltb_spec (fst x) (fst y)); destruct (Z.leb_spec (- fst x) (- fst y)); try lia; reflexivity.
  - destruct (Z.ltb_spec (fst y) (fst x)); destruct (Z.leb_spec (fst x) (fst y)); try lia; reflexivity.
Qed.

Lemma ranking_sorted sd b : ranking sd b = sorted_side sd b.
Proof.
  unfold ranking, sorted_side. induction (pairs sd b) as [|x l IH]; [reflexivity|].
  cbn [fold_right sort_by_key]. rewrite IH. apply place_insert.
Qed.

Lemma need_margin c b pos n :
  valid_config c -> good_book b -> pos_ok pos -> order_margin c b pos = Done n -> n = need c b (position_quantity pos).
Proof.
  intros V Hg Hp H. rewrite order_margin_internal_eq in H; [|assumption|assumption|intros _; apply (vc_imr _ V)].
  injection H as <-. unfold req, need. rewrite !ranking_sorted. reflexivity.
Qed.

Lemma swap_remove_S o r n : swap_remove (o :: r) (S n) = o :: swap_remove r n \/ r = [].
Proof.
  destruct r as [|x r]; [right; reflexivity|left]. unfold swap_remove.
  cbn [length Nat.pred Nat.eqb]. destruct n as [|n].
  - destruct (length r) eqn:E; cbn [Nat.eqb]; [destruct r; [reflexivity | discriminate]|].
    cbn [nth_error firstn skipn removelast app]. destruct r; [discriminate|]. cbn [removelast].
    cbn [nth_error]. destruct (nth_error (l :: r) n); reflexivity.
  - destruct (length r) eqn:E; cbn [Nat.eqb].
    + destruct r; [|discriminate]. reflexivity.
    + destruct (Nat.eqb n n0) eqn:En.
      * destruct r; [discriminate|]. reflexivity.
      * destruct r as [|y r]; [discriminate|]. cbn [nth_error firstn app].
        destruct (nth_error (y :: r) n0); reflexivity.
Qed.

Lemma nth_error_last {A} (l : list A) (x d : A) : nth_error (x :: l) (length l) = Some (last (x :: l) d).
Proof.
  revert x. induction l as [|y l IH]; intros x; [reflexivity|]. change (nth_error (y :: l) (length l) = Some (last (y :: l) d)). apply IH.
Qed.

Lemma remove_take p b o b' : remove_by p b = Some (o, b') -> b' = take_out p b.
Proof.
  unfold remove_by. revert o b'. induction b as [|x b IH]; intros o b'; [discriminate|].
  cbn [position_of take_out]. destruct (p x) eqn:E.
  - cbn [nth_error]. intros H. injection H as <- <-. unfold swap_remove. destruct b as [|y b]; [reflexivity|].
    cbn [length Nat.pred Nat.eqb]. change (nth_error (x :: y :: b) (S (length b))) with (nth_error (y :: b) (length b)).
    rewrite (nth_error_last b y x). reflexivity.
  - destruct (position_of p b) as [n|] eqn:En; cbn [option_map]; [|discriminate]. cbn [nth_error].
    destruct (nth_error b n) as [z|] eqn:Ez; [|discriminate]. intros H. injection H as <- <-.
    destruct (swap_remove_S x b n) as [->| ->]; [|destruct n; discriminate].
    f_equal. apply (IH z). reflexivity.
Qed.

Lemma remove_with_take b by_ o b' :
  remove_with b by_ = Some (o, b') -> b' = take_out (named by_) b /\ find (named by_) b = Some o.
Proof.
  intros H. destruct by_; cbn [remove_with] in H; (split; [apply (remove_take _ _ _ _ H) | apply (remove_by_find _ _ _ _ H)]).
Qed.
Lemma remove_with_none b by_ : remove_with b by_ = None -> find (named by_) b = None.
Proof. destruct by_; cbn [remove_with]; intros H; apply (proj1 (remove_by_none _ _) H). Qed.

Lemma good_of_inv c e : Inv c e -> good_book (ex_active e).
Proof. intros I o Ho. destruct (inv_ok _ _ I o Ho) as (? & ? & _). auto. Qed.

(** ** The exchange as a machine, with the book tracked by the margin computation *)
Definition view (e : exchange) : machine :=
  {| m_book := ledger_abs (ex_acc e) (ex_pos e); m_held := bal (ex_acc e) POSITION_MARGIN;
     m_reserved := bal (ex_acc e) ORDER_MARGIN; m_orders := ex_om e;
     m_bid := ms_bid (ex_ms e); m_ask := ms_ask (ex_ms e); m_time := ms_ts (ex_ms e); m_next := ex_next_id e |}.

Lemma view_of c e : Inv c e -> machine_of e = view e.
Proof. intros I. unfold machine_of, view. rewrite (inv_books _ _ I). reflexivity. Qed.

Lemma machine_eq a b :
  m_book a = m_book b -> m_held a = m_held b -> m_reserved a = m_reserved b -> m_orders a = m_orders b ->
  m_bid a = m_bid b -> m_ask a = m_ask b -> m_time a = m_time b -> m_next a = m_next b -> a = b.
Proof. destruct a, b; cbn; intros; subst; reflexivity. Qed.

Lemma free_wallet e : m_free (view e) = bal (ex_acc e) WALLET.
Proof. unfold m_free, view, ledger_abs. cbn [m_book m_held m_reserved l_cash]. lia. Qed.
Lemma pos_view e : m_pos (view e) = position_quantity (ex_pos e).
Proof. reflexivity. Qed.

(** ** Fills *)
Lemma meet_one c ru u e e' o q :
  valid_config c -> fill_effect c u e e' o q -> touched ru o = Some q -> update_ts u = time_of ru ->
  NoDup (ids (ex_om e)) -> good_book (ex_om e) -> pos_ok (ex_pos e) -> In o (ex_om e) ->
  view e' = m_meet c ru (view e) o /\ NoDup (ids (ex_om e')) /\ good_book (ex_om e') /\ pos_ok (ex_pos e') /\
  (forall x, In x (ex_om e) -> lo_id x <> lo_id o -> In x (ex_om e')).
Proof.
  intros V F Ht Hts Hnd Hg Hpo Hin.
  destruct (fe_acc _ _ _ _ _ _ F) as (acc1 & n & Hcp & Hn & _ & Hacc).
  pose proof (fe_q _ _ _ _ _ _ F) as Hq. pose proof (cp_pos_ok _ _ _ _ _ _ _ _ _ Hcp Hpo) as Hpo'.
  pose proof (fe_om _ _ _ _ _ _ F) as Hom.
  assert (B : ex_om e' = match reported_as (c_scale c) o q (time_of ru) with
               | FullyFilled _ => take_out (named (ByOrderId (lo_id o))) (ex_om e)
               | PartiallyFilled o' => map (fun x => if lo_id x =? lo_id o then o' else x) (ex_om e)
               end /\ NoDup (ids (ex_om e')) /\ good_book (ex_om e') /\
               (forall x, In x (ex_om e) -> lo_id x <> lo_id o -> In x (ex_om e'))).
  { rewrite <- fill_event_report. unfold fill_event. destruct (q =? lo_rem o) eqn:Eq.
    - apply om_remove_id_done in Hom as [x Hx]. pose proof (remove_with_take _ (ByOrderId (lo_id o)) _ _ Hx) as [Hb Hf].
      split; [exact Hb|]. destruct (remove_by_spec _ _ _ _ Hx) as (_ & Hpx & Hperm).
      split; [|split].
      + pose proof (Permutation_map lo_id Hperm) as P. assert (N : NoDup (ids (x :: ex_om e'))) by (eapply Permutation_NoDup; [exact P | exact Hnd]).
        inversion N; assumption.
      + intros y Hy. apply Hg. eapply Permutation_in; [symmetry; exact Hperm | right; exact Hy].
      + intros y Hy Hne. apply (Permutation_in _ Hperm) in Hy as [<-|Hy]; [|exact Hy]. exfalso. apply Hne. cbn in Hpx. lia.
    - apply om_update_done in Hom as [Hr [(Hnone & _)|(old & Hold & Hb & _)]].
      + exfalso. apply get_by_id_none in Hnone. apply Hnone. apply (in_map lo_id) in Hin. exact Hin.
      + rewrite replace_by_id_map in Hb by exact Hnd. cbn [after_fill lo_id] in Hb.
        split; [exact Hb|]. split; [|split].
        * rewrite Hb, ids_upd by reflexivity. exact Hnd.
        * intros y Hy. rewrite Hb in Hy. apply in_map_iff in Hy as (z & <- & Hz). unfold upd.
          destruct (lo_id z =? lo_id o); [|apply Hg; exact Hz]. cbn. cbn in Hr. destruct (Hg o Hin). lia.
        * intros y Hy Hne. rewrite Hb. apply in_map_iff. exists y. unfold upd. destruct (Z.eqb_spec (lo_id y) (lo_id o)); [contradiction|]. auto. }
  destruct B as (B & Hnd' & Hg' & Hkeep). split; [|auto].
  pose proof (need_margin _ _ _ _ V Hg' Hpo' Hn) as Hneed.
  pose proof (fe_ledger _ _ _ _ _ _ Hpo F) as HL.
  assert (Hpm : bal (ex_acc e') POSITION_MARGIN = bal acc1 POSITION_MARGIN).
  { rewrite Hacc. destruct (n <? _); [|reflexivity]. rewrite bal_transfer by discriminate. unfold delta; cbn. lia. }
  assert (Hom2 : bal (ex_acc e') ORDER_MARGIN = Z.min (bal (ex_acc e) ORDER_MARGIN) n).
  { rewrite Hacc. pose proof (cp_om _ _ _ _ _ _ _ _ _ Hcp). destruct (Z.ltb_spec n (bal (ex_acc e) ORDER_MARGIN)); [|lia].
    rewrite bal_transfer by discriminate. unfold delta; cbn -[bal]. lia. }
  assert (HQ : position_quantity (ex_pos e') = l_qty (apply_fill (c_kind c) (c_scale c) (ledger_abs (ex_acc e) (ex_pos e)) (fill_of c o q))).
  { rewrite <- HL. reflexivity. }
  apply machine_eq; unfold m_meet; rewrite Ht; cbn [view with_orders m_fill m_pos m_book m_held m_reserved m_orders m_bid m_ask m_time m_next].
  - exact HL.
  - rewrite Hpm. rewrite (cp_margin _ _ _ _ _ _ (ct_maker (c_spec c)) _ _ _ Hpo (proj1 Hq) Hcp). reflexivity.
  - rewrite Hom2, Hneed, HQ. rewrite <- B. reflexivity.
  - exact B.
  - rewrite (fe_ms _ _ _ _ _ _ F); reflexivity.
  - rewrite (fe_ms _ _ _ _ _ _ F); reflexivity.
  - rewrite (fe_ms _ _ _ _ _ _ F); reflexivity.
  - exact (fe_next _ _ _ _ _ _ F).
Qed.

Lemma meet_all c ru u l e e' :
  valid_config c -> fills c u e l e' -> (forall o, In o l -> fillq c u o = touched ru o) -> update_ts u = time_of ru ->
  NoDup (ids (ex_om e)) -> good_book (ex_om e) -> pos_ok (ex_pos e) -> NoDup (ids l) -> (forall o, In o l -> In o (ex_om e)) ->
  view e' = fold_left (m_meet c ru) l (view e).
Proof.
  intros V F. induction F as [e|e o l e' Hq F IH|e o q e1 l e' Hq He F IH]; intros Ht Hts Hnd Hg Hpo Hl Hin.
  - reflexivity.
  - cbn [fold_left]. unfold m_meet at 2. rewrite <- (Ht o (or_introl eq_refl)), Hq. inversion Hl; subst.
    apply IH; try assumption; intros; [apply Ht | apply Hin]; right; assumption.
  - cbn [fold_left]. inversion Hl as [|? ? Hno Hl']; subst.
    assert (Hto : touched ru o = Some q) by (rewrite <- (Ht o (or_introl eq_refl)); exact Hq).
    destruct (meet_one _ _ _ _ _ _ _ V He Hto Hts Hnd Hg Hpo (Hin o (or_introl eq_refl))) as (Hv & Hnd' & Hg' & Hpo' & Hk).
    rewrite <- Hv. apply IH; try assumption; [intros; apply Ht; right; assumption|].
    intros x Hx. apply Hk; [apply Hin; right; exact Hx|]. intros E. apply Hno. rewrite <- E. apply (in_map lo_id) in Hx. exact Hx.
Qed.

Lemma check_view c ru u e e' :
  valid_config c -> Inv c e -> build_update (c_dbg c) ru = Done u -> check_active_orders c e u = Done e' ->
  view e' = m_meet_all c ru (view e).
Proof.
  intros V I Hb H. pose proof (check_active_effect _ _ _ _ _ I Hb H) as (_ & _ & _ & _ & _ & _).
  apply check_active_spec in H as [(Hc & ->)|(Hc & e1 & act & _ & Hq & F & _ & -> & _)].
  - assert (E : forall o, touched ru o = None).
    { intros o. destruct ru; cbn [build_update] in Hb; try (injection Hb as <-); try discriminate; [reflexivity|].
      apply bind_done in Hb as [? [_ Hb]]. injection Hb as <-. discriminate. }
    unfold m_meet_all. replace (view (set_updates e [])) with (view e) by reflexivity.
    induction (m_orders (view e)) as [|o l IH]; [reflexivity|]. cbn [fold_left]. unfold m_meet at 2. rewrite E. exact IH.
  - unfold m_meet_all. change (m_orders (view e)) with (ex_om e). rewrite (inv_books _ _ I).
    change (view (set_active e1 act)) with (view e1). change (view e) with (view (set_updates e [])).
    eapply meet_all; [exact V | exact F | | | | | | |].
    + intros o Ho. eapply fillq_touched; [exact Hb | apply Hq; exact Ho].
    + apply (time_of_update _ _ _ Hb).
    + cbn [set_updates ex_om]. rewrite (inv_books _ _ I). apply (inv_nodup _ _ I).
    + cbn [set_updates ex_om]. rewrite (inv_books _ _ I). apply (good_of_inv _ _ I).
    + apply (inv_pos _ _ I).
    + apply (inv_nodup _ _ I).
    + intros o Ho. cbn [set_updates ex_om]. rewrite (inv_books _ _ I). exact Ho.
Qed.

Lemma market_view c e e' o :
  Inv c e -> market_effect c e e' o -> view e' = with_id (m_fill c (view e) (taken c (view e) (nm_side o) (nm_qty o))).
Proof.
  intros I M. pose proof (inv_pos _ _ I) as Hpo. pose proof (me_cp _ _ _ _ M) as Hcp.
  assert (Hpr : quote_price (ex_ms e) (nm_side o) = m_price (view e) (nm_side o)) by (destruct (nm_side o); reflexivity).
  apply machine_eq; cbn [view with_id m_fill m_book m_held m_reserved m_orders m_bid m_ask m_time m_next];
    try (rewrite (me_ms _ _ _ _ M); reflexivity).
  - rewrite (cp_ledger _ _ _ _ _ _ _ _ _ _ Hpo eq_refl Hcp). unfold taken. rewrite Hpr. reflexivity.
  - rewrite (cp_margin _ _ _ _ _ _ (ct_taker (c_spec c)) _ _ _ Hpo (me_qty _ _ _ _ M) Hcp). unfold taken. rewrite Hpr. reflexivity.
  - exact (cp_om _ _ _ _ _ _ _ _ _ Hcp).
  - exact (me_om _ _ _ _ M).
  - exact (me_next _ _ _ _ M).
Qed.

(** ** Updates *)
Lemma pre_check_view c e ru u :
  build_update (c_dbg c) ru = Done u -> view (pre_check c e u) = with_quote (view e) ru.
Proof.
  intros Hb. destruct (quoted c e ru u Hb) as (Q1 & Q2 & Q3 & _). destruct (pre_check_fields c e u) as (E1 & E2 & _ & E4 & E5 & _).
  apply machine_eq; cbn [view with_quote m_book m_held m_reserved m_orders m_bid m_ask m_time m_next]; rewrite ?E1, ?E2; auto.
Qed.

Lemma due_view c e ru u :
  build_update (c_dbg c) ru = Done u -> pos_ok (ex_pos e) ->
  (m_due c (view (pre_check c e u)) = true <-> due_after c e ru).
Proof.
  intros Hb Hpo. rewrite (pre_check_view c e ru u Hb). unfold m_due, due_after, due, quote_after.
  cbn [with_quote view m_pos m_book ledger_abs l_qty l_entry m_bid m_ask].
  destruct (ex_pos e) as [|i|i]; cbn [position_quantity position_entry_price pos_ok] in *.
  - cbn. split; [discriminate | contradiction].
  - destruct (Z.ltb_spec 0 (pi_qty i)); [|lia]. apply Z.leb_le.
  - destruct (Z.ltb_spec 0 (- pi_qty i)); [lia|]. destruct (Z.ltb_spec (- pi_qty i) 0); [|lia]. apply Z.ltb_lt.
Qed.

Lemma update_view c e ru e' r :
  valid_config c -> reachable c e -> step c e (OpUpdate ru) = Done (e', r) -> m_update c (view e) ru = (view e', r).
Proof.
  intros V R H. pose proof (reachable_inv _ _ (vc_max _ V) R) as I. cbn [step] in H. apply bind_done in H as [u [Hu H]].
  apply map_out_done in H as (rr & H & Hr). apply update_state_spec in H as [_ H]. cbv zeta in H.
  unfold m_update. rewrite <- (pre_check_view c e ru u Hu).
  pose proof (due_view c e ru u Hu (inv_pos _ _ I)) as D. pose proof (pre_check_inv c e u I) as I0.
  destruct (maintenance_due c e ru u V R Hu) as [[E Hd]|[E Hd]]; rewrite E in H; destruct H as [-> H]; subst r; cbn [map_result].
  - apply D in Hd. rewrite Hd. apply liquidate_spec in H as (o & M & _ & Ho).
    rewrite (market_view _ _ _ _ I0 M). f_equal. pose proof (inv_pos _ _ I0) as Hpo.
    change (m_pos (view (pre_check c e u))) with (position_quantity (ex_pos (pre_check c e u))).
    destruct (ex_pos (pre_check c e u)) as [|i|i]; [contradiction| |]; destruct Ho as [-> ->]; cbn [position_quantity pos_ok] in *.
    + destruct (Z.ltb_spec 0 (pi_qty i)); [|lia]. rewrite Z.abs_eq by lia. reflexivity.
    + destruct (Z.ltb_spec 0 (- pi_qty i)); [lia|]. rewrite Z.abs_opp, Z.abs_eq by lia. reflexivity.
  - destruct (m_due c (view (pre_check c e u))) eqn:Em; [exfalso; apply Hd, D; reflexivity|].
    rewrite (check_view _ _ _ _ _ V I0 Hu H). destruct (check_active_effect _ _ _ _ _ I0 Hu H) as (C1 & _).
    rewrite C1. change (m_orders (view (pre_check c e u))) with (ex_om (pre_check c e u)). rewrite (inv_books _ _ I0). reflexivity.
Qed.

(** ** Market orders *)
Lemma mod_rem a b : b <> 0 -> (a mod b =? 0) = (Z.rem a b =? 0).
Proof.
  intros Hb. destruct (Z.eqb_spec (Z.rem a b) 0) as [E|E].
  - apply Z.rem_divide in E; [|exact Hb]. apply Z.mod_divide in E; [|exact Hb]. lia.
  - destruct (Z.eqb_spec (a mod b) 0) as [E2|E2]; [|reflexivity]. apply Z.mod_divide in E2; [|exact Hb]. apply Z.rem_divide in E2; [|exact Hb]. contradiction.
Qed.

Lemma quantity_view f q v :
  qf_tick f <> 0 -> 0 < q -> validate_order_quantity f q = Done v ->
  quantity_fault f q = match v with Ok _ => None | Err e => Some e end.
Proof.
  intros Ht Hq. unfold validate_order_quantity, quantity_fault, drem. destruct (Z.eqb_spec q 0); [lia|].
  destruct (match qf_max f with Some m => m <? q | None => false end); [intros H; injection H as <-; reflexivity|].
  destruct (match qf_min f with Some m => q <? m | None => false end); [intros H; injection H as <-; reflexivity|].
  destruct (Z.eqb_spec (qf_tick f) 0); [contradiction|]. cbn [bind]. rewrite mod_rem by assumption.
  destruct (Z.rem _ _ =? 0); cbn [negb]; intros H; injection H as <-; reflexivity.
Qed.

Lemma price_view s f p mark v :
  pf_tick f <> 0 -> 0 < p -> validate_limit_price s f p mark = Done v ->
  price_fault s f mark p = match v with Ok _ => None | Err e => Some e end.
Proof.
  intros Ht Hq. unfold validate_limit_price, price_fault, drem, dmul. destruct (Z.leb_spec p 0); [lia|].
  destruct (match pf_max f with Some m => m <? p | None => false end); [intros E; injection E as <-; reflexivity|].
  destruct (match pf_min f with Some m => p <? m | None => false end); [intros E; injection E as <-; reflexivity|].
  destruct (Z.eqb_spec (pf_tick f) 0); [contradiction|]. cbn [bind]. rewrite mod_rem by assumption.
  destruct (Z.rem _ _ =? 0); cbn [negb]; [|intros E; injection E as <-; reflexivity].
  rewrite (andb_comm (negb (pf_up f =? 0))), (andb_comm (negb (pf_down f =? 0))).
  destruct ((_ <? p) && _); [intros E; injection E as <-; reflexivity|].
  destruct ((p <? _) && _); intros E; injection E as <-; reflexivity.
Qed.

Lemma funded_view c e sd q v :
  pos_ok (ex_pos e) -> 0 < q ->
  check_market_order c (ex_pos e) (bal (ex_acc e) POSITION_MARGIN) sd q (quote_price (ex_ms e) sd) (bal (ex_acc e) WALLET) = Done v ->
  v = if m_funded c (view e) sd q then Ok tt else Err NotEnoughAvailableBalance.
Proof.
  intros Hpo Hq H. unfold m_funded. rewrite free_wallet, pos_view.
  change (m_price (view e) sd) with (quote_price (ex_ms e) sd). change (m_held (view e)) with (bal (ex_acc e) POSITION_MARGIN).
  unfold fee, taken. cbn [f_qty f_price f_rate signed_qty f_side]. change (m_price (view e) sd) with (quote_price (ex_ms e) sd).
  assert (O : forall w, check_market_open c q (quote_price (ex_ms e) sd) w = Done v ->
    v = if margin_at c q (quote_price (ex_ms e) sd) + Z.quot (value (c_kind c) (c_scale c) q (quote_price (ex_ms e) sd) * ct_taker (c_spec c)) (c_scale c) <=? w
        then Ok tt else Err NotEnoughAvailableBalance).
  { intros w E. unfold check_market_open in E. apply bind_done in E as [n [En E]]. apply convert_from_done in En. subst n. injection E as <-.
    unfold margin_at, dmul. change (value (c_kind c)) with (conv (c_kind c)). rewrite Z.leb_antisym. destruct (_ <? _); reflexivity. }
  assert (Rd : forall i w m, check_market_reduce c i m q (quote_price (ex_ms e) sd) w = Done v ->
    v = if (q <=? pi_qty i) || (margin_at c (q - pi_qty i) (quote_price (ex_ms e) sd) + Z.quot (value (c_kind c) (c_scale c) (q - pi_qty i) (quote_price (ex_ms e) sd) * ct_taker (c_spec c)) (c_scale c) <=? w + m)
        then Ok tt else Err NotEnoughAvailableBalance).
  { intros i w m E. unfold check_market_reduce in E. destruct (q <=? pi_qty i); [injection E as <-; reflexivity|]. cbn [orb].
    apply bind_done in E as [n [En E]]. apply convert_from_done in En. subst n. injection E as <-.
    unfold margin_at, dmul. change (value (c_kind c)) with (conv (c_kind c)). rewrite Z.leb_antisym. destruct (_ <? _); reflexivity. }
  unfold check_market_order in H. destruct (ex_pos e) as [|i|i]; cbn [position_quantity pos_ok] in *.
  - cbn [Z.eqb orb]. destruct sd; apply O in H; exact H.
  - destruct (Z.eqb_spec (pi_qty i) 0); [lia|]. cbn [orb]. rewrite Z.abs_eq by lia. destruct sd; cbn [signed_qty f_side f_qty].
    + replace (Z.sgn (pi_qty i) =? Z.sgn q) with true by lia. apply O in H; exact H.
    + replace (Z.sgn (pi_qty i) =? Z.sgn (- q)) with false by lia. apply Rd in H; exact H.
  - destruct (Z.eqb_spec (- pi_qty i) 0); [lia|]. cbn [orb]. rewrite Z.abs_opp, Z.abs_eq by lia. destruct sd; cbn [signed_qty f_side f_qty].
    + replace (Z.sgn (- pi_qty i) =? Z.sgn q) with false by lia. apply Rd in H; exact H.
    + replace (Z.sgn (- pi_qty i) =? Z.sgn (- q)) with true by lia. apply O in H; exact H.
Qed.

Lemma same_core_view e e' : same_core e e' -> ex_next_id e' = ex_next_id e -> view e' = view e.
Proof. intros (H1 & H2 & H3 & H4 & H5 & _) Hn. unfold view. rewrite H1, H2, H3, H5, Hn. reflexivity. Qed.
Lemma same_core_view_next e e' : same_core e e' -> ex_next_id e' = ex_next_id e + 1 -> view e' = with_id (view e).
Proof. intros (H1 & H2 & H3 & H4 & H5 & _) Hn. unfold view, with_id. rewrite H1, H2, H3, H5, Hn. reflexivity. Qed.

Lemma market_call c e sd q uid e' r :
  valid_config c -> Inv c e -> step c e (OpMarket sd q uid) = Done (e', r) -> m_market c (view e) sd q uid = (view e', r).
Proof.
  intros V I H. cbn [step] in H. unfold market_new in H. unfold m_market. destruct (Z.leb_spec q 0) as [Hq|Hq]; [injection H as <- <-; reflexivity|].
  apply map_out_done in H as (rr & H & ->). apply submit_market_spec in H. destruct rr as [f|err]; cbn [map_result].
  - destruct H as [-> M]. rewrite (quantity_view _ _ _ (vc_qtick _ V) Hq (me_valid _ _ _ _ M)). cbn [nm_qty nm_side].
    pose proof (funded_view c e sd q _ (inv_pos _ _ I) Hq (me_risk _ _ _ _ M)) as Hf.
    destruct (m_funded c (view e) sd q); [|discriminate]. rewrite (market_view _ _ _ _ I M). reflexivity.
  - destruct H as (Hs & _ & [(oe & -> & Hv & Hn)|(re & -> & Hn & Hv & Hc)]); cbn [nm_qty nm_side] in *;
      rewrite (quantity_view _ _ _ (vc_qtick _ V) Hq Hv).
    + rewrite (same_core_view _ _ Hs Hn). reflexivity.
    + pose proof (funded_view c e sd q _ (inv_pos _ _ I) Hq Hc) as Hf.
      destruct (m_funded c (view e) sd q); [discriminate|]. injection Hf as ->. rewrite (same_core_view_next _ _ Hs Hn). reflexivity.
Qed.

(** ** Limit orders *)
Lemma ledger_move a pos n : ledger_abs (transfer_pure a ORDER_MARGIN WALLET n) pos = ledger_abs a pos.
Proof. unfold ledger_abs. rewrite !bal_transfer by discriminate. unfold delta. cbn -[Z.add Z.sub bal]. f_equal; lia. Qed.
Lemma ledger_move_back a pos n : ledger_abs (transfer_pure a WALLET ORDER_MARGIN n) pos = ledger_abs a pos.
Proof. unfold ledger_abs. rewrite !bal_transfer by discriminate. unfold delta. cbn -[Z.add Z.sub bal]. f_equal; lia. Qed.

Lemma submit_view c e sd p q uid e' r :
  valid_config c -> Inv c e -> 0 < p -> 0 < q ->
  map_out OutLimit (submit_limit_order c e {| nl_uid := uid; nl_side := sd; nl_price := p; nl_rem := q |}) = Done (e', r) ->
  m_submit c (view e) sd p q uid = (view e', r).
Proof.
  intros V I Hp Hq H. apply map_out_done in H as (rr & H & ->).
  pose proof (submit_limit_spec _ _ _ _ _ H) as S. cbv zeta in S. cbn [nl_rem nl_price nl_side nl_uid] in S. unfold m_submit.
  set (ord := limit_into_pending {| nl_uid := uid; nl_side := sd; nl_price := p; nl_rem := q |} (ex_next_id e) (ms_ts (ex_ms e))) in *.
  change {| lo_uid := uid; lo_side := sd; lo_price := p; lo_rem := q; lo_id := m_next (view e); lo_ts := m_time (view e); lo_filled := Unfilled |} with ord.
  change (m_orders (view e)) with (ex_om e). rewrite free_wallet, pos_view.
  change (Z.quot (m_bid (view e) + m_ask (view e)) 2) with (mid_price (ex_ms e)).
  assert (Hg : good_book (ex_om e)) by (rewrite (inv_books _ _ I); apply (good_of_inv _ _ I)).
  assert (Hg' : good_book (ex_om e ++ [ord])).
  { intros x Hx. apply in_app_or in Hx as [Hx|[<-|[]]]; [apply Hg; exact Hx | cbn; lia]. }
  pose proof (inv_pos _ _ I) as Hpo.
  assert (K : forall v, check_limit_order c (ex_pos e) ord (bal (ex_acc e) WALLET) (ex_om e) = Done v ->
    v = if bal (ex_acc e) WALLET + need c (ex_om e) (position_quantity (ex_pos e)) <? need c (ex_om e ++ [ord]) (position_quantity (ex_pos e))
        then Err NotEnoughAvailableBalance else Ok tt).
  { intros v E. unfold check_limit_order in E. apply bind_done in E as [n1 [E1 E]]. apply bind_done in E as [n2 [E2 E]]. rewrite with_order_eq in E2.
    apply (need_margin _ _ _ _ V Hg Hpo) in E1. apply (need_margin _ _ _ _ V Hg' Hpo) in E2. subst. injection E as <-. reflexivity. }
  assert (Mk : match sd with Buy => m_ask (view e) <=? p | Sell => p <=? m_bid (view e) end = marketable (ex_ms e) ord) by (destruct sd; reflexivity).
  rewrite Mk.
  destruct S as [(err & -> & Hs & _ & S)|(Hv & Hpv & Hc & Hm & a & Ha & ->)].
  - destruct S as [(oe & -> & Hn & [Hv|[Hv Hpv]])|(Hn & Hv & Hpv & S)]; rewrite (quantity_view _ _ _ (vc_qtick _ V) Hq Hv).
    + rewrite (same_core_view _ _ Hs Hn). reflexivity.
    + rewrite (price_view _ _ _ _ _ (vc_ptick _ V) Hp Hpv). rewrite (same_core_view _ _ Hs Hn). reflexivity.
    + rewrite (price_view _ _ _ _ _ (vc_ptick _ V) Hp Hpv). rewrite (same_core_view_next _ _ Hs Hn).
      destruct S as [(re & -> & Hc)|(-> & Hm & Hc)]; apply K in Hc; destruct (_ <? _); try discriminate.
      * injection Hc as ->. reflexivity.
      * rewrite Hm. reflexivity.
  - rewrite (quantity_view _ _ _ (vc_qtick _ V) Hq Hv), (price_view _ _ _ _ _ (vc_ptick _ V) Hp Hpv), Hm.
    apply K in Hc. destruct (_ <? _); [discriminate|]. clear Hc.
    pose proof (append_spec _ _ _ _ _ Ha) as A. destruct a as [[]|err]; cbn [map_result].
    + destruct (ae_acc _ _ _ _ A) as (n & Hn & Hacc). pose proof (ae_om _ _ _ _ A) as Hom. cbn [trk_next set_next_id set_trk ex_om ex_acc ex_pos ex_active] in *.
      apply om_update_done in Hom as [_ [(_ & Hb & Hl)|(old & Ho & _)]].
      2:{ exfalso. apply get_by_id_in in Ho as [Hin Hid]. apply (inv_fresh _ _ I). rewrite <- (inv_books _ _ I). apply in_map_iff. exists old. split; [exact Hid | exact Hin]. }
      destruct (Z.leb_spec (c_max c) (Z.of_nat (length (ex_om e)))); [lia|].
      rewrite Hb in Hn. apply (need_margin _ _ _ _ V Hg' Hpo) in Hn. rewrite <- Hn. f_equal. symmetry.
      pose proof (ae_ms _ _ _ _ A) as Ems. pose proof (ae_pos _ _ _ _ A) as Eps. pose proof (ae_next _ _ _ _ A) as Enx.
      cbn [trk_next set_next_id set_trk ex_ms ex_pos ex_next_id] in Ems, Eps, Enx.
      apply machine_eq; cbn [view with_id with_orders m_book m_held m_reserved m_orders m_bid m_ask m_time m_next]; rewrite ?Ems, ?Eps; try reflexivity; try assumption.
      * destruct Hacc as [[_ ->]|(_ & -> & _)]; [reflexivity | apply ledger_move].
      * destruct Hacc as [[_ ->]|(_ & -> & _)]; [reflexivity|]. rewrite bal_transfer by discriminate. unfold delta; cbn -[bal]. lia.
      * destruct Hacc as [[-> ->]|(_ & -> & _)]; [lia|]. rewrite bal_transfer by discriminate. unfold delta; cbn -[bal Z.abs]. lia.
    + cbn [trk_next set_next_id set_trk ex_om ex_acc ex_pos ex_active] in *. destruct A as (-> & [(-> & _ & Hl)|(om' & r' & Hom & -> & _ & Hl)]).
      * destruct (Z.leb_spec (c_max c) (Z.of_nat (length (ex_om e)))); [|lia]. reflexivity.
      * pose proof (inv_len _ _ I). pose proof (vc_max _ V). rewrite (inv_books _ _ I). unfold active_capacity in Hl.
        destruct (Z.leb_spec (c_max c) (Z.of_nat (length (ex_active e)))); [|lia].
        exfalso. destruct r'. apply om_update_done in Hom as [_ [(_ & _ & Hl2)|(old & Ho & _)]].
        -- rewrite (inv_books _ _ I) in Hl2. lia.
        -- apply get_by_id_in in Ho as [Hin Hid]. apply (inv_fresh _ _ I). rewrite <- (inv_books _ _ I). apply in_map_iff. exists old. split; [exact Hid | exact Hin].
Qed.

(** ** Cancellations *)
Lemma drop_view c e e' b o :
  valid_config c -> Inv c e -> cancel_effect c e e' b o ->
  view e' = m_drop c (view e) b /\ find (named b) (ex_om e) = Some o.
Proof.
  intros V I C. destruct (remove_with_take _ _ _ _ (ce_active _ _ _ _ _ C)) as [Hb Hf]. rewrite <- (inv_books _ _ I) in Hb, Hf.
  split; [|exact Hf]. pose proof (cancel_effect_inv _ _ _ _ _ I C) as I'.
  destruct (ce_acc _ _ _ _ _ C) as (n & Hn & Hle & Hacc). pose proof (ce_pos _ _ _ _ _ C) as Ep. rewrite <- Ep in Hn.
  apply (need_margin _ _ _ _ V) in Hn; [|rewrite (ce_books _ _ _ _ _ C); apply (good_of_inv _ _ I') | apply (inv_pos _ _ I')].
  rewrite (ce_books _ _ _ _ _ C), Hb, Ep in Hn.
  apply machine_eq; unfold m_drop; cbn [view with_orders m_pos m_book m_held m_reserved m_orders m_bid m_ask m_time m_next];
    try (rewrite (ce_ms _ _ _ _ _ C); reflexivity).
  - rewrite Hacc, Ep. destruct (_ <? _); [apply ledger_move_back | reflexivity].
  - rewrite Hacc. destruct (_ <? _); [|reflexivity]. rewrite bal_transfer by discriminate. unfold delta; cbn -[bal]. lia.
  - transitivity n; [|exact Hn]. rewrite Hacc. destruct (Z.ltb_spec n (bal (ex_acc e) ORDER_MARGIN)); [|lia].
    rewrite bal_transfer by discriminate. unfold delta; cbn -[bal]. lia.
  - rewrite (ce_books _ _ _ _ _ C). exact Hb.
  - exact (ce_next _ _ _ _ _ C).
Qed.

Lemma cancel_view c e b e' r :
  valid_config c -> Inv c e -> step c e (OpCancel b) = Done (e', r) -> m_cancel c (view e) b = (view e', r).
Proof.
  intros V I H. cbn [step] in H. apply map_out_done in H as (rr & H & ->). apply cancel_spec in H as [_ H].
  unfold m_cancel. change (m_orders (view e)) with (ex_om e). destruct rr as [o|err]; cbn [map_result].
  - destruct (drop_view _ _ _ _ _ V I H) as [-> ->]. reflexivity.
  - destruct H as (-> & Hn & ->). apply remove_with_none in Hn. rewrite (inv_books _ _ I), Hn. destruct b; reflexivity.
Qed.

Lemma amend_view c e id sd p q uid e' r :
  valid_config c -> Inv c e -> step c e (OpAmend id sd p q uid) = Done (e', r) -> m_amend c (view e) id sd p q uid = (view e', r).
Proof.
  intros V I H. cbn [step] in H. unfold limit_new in H. unfold m_amend.
  destruct (Z.leb_spec p 0); [injection H as <- <-; reflexivity|]. destruct (Z.leb_spec q 0); [injection H as <- <-; reflexivity|].
  apply map_out_done in H as (rr & H & ->). apply amend_spec in H. change (m_orders (view e)) with (ex_om e). rewrite (inv_books _ _ I).
  unfold get_by_id in H. change (find (named (ByOrderId id)) (ex_active e)) with (find (fun o => lo_id o =? id) (ex_active e)).
  destruct (find (fun o => lo_id o =? id) (ex_active e)) as [x|] eqn:Ex.
  2:{ destruct H as [-> ->]. reflexivity. }
  cbv zeta in H. cbn [nl_rem nl_uid nl_side nl_price] in H. destruct H as [_ H].
  replace (lo_rem x + (q - (lo_rem x + lo_filled_qty x))) with (q - lo_filled_qty x) in H by lia.
  destruct (Z.leb_spec (q - lo_filled_qty x) 0).
  - destruct H as [[y C] ->]. destruct (drop_view _ _ _ _ _ V I C) as [-> _]. reflexivity.
  - destruct H as (e1 & y & C & H). destruct (drop_view _ _ _ _ _ V I C) as [<- _]. pose proof (cancel_effect_inv _ _ _ _ _ I C) as I1.
    eapply submit_view; [exact V | exact I1 | assumption | assumption |]. unfold map_out. rewrite H. reflexivity.
Qed.

(** ** Every call *)
Lemma step_view c e o e' r :
  valid_config c -> reachable c e -> step c e o = Done (e', r) -> m_call c (view e) o = (view e', r).
Proof.
  intros V R H. pose proof (reachable_inv _ _ (vc_max _ V) R) as I. destruct o; cbn [m_call].
  - apply update_view; assumption.
  - apply market_call; assumption.
  - cbn [step] in H. unfold limit_new in H. unfold m_limit.
    destruct (Z.leb_spec price 0); [injection H as <- <-; reflexivity|]. destruct (Z.leb_spec qty 0); [injection H as <- <-; reflexivity|].
    apply submit_view; assumption.
  - apply cancel_view; assumption.
  - apply amend_view; assumption.
  - cbn [step] in H. apply bind_done in H as [u [Hu H]]. apply bind_done in H as [e1 [He H]]. injection H as <- <-.
    rewrite (check_view _ _ _ _ _ V I Hu He). reflexivity.
Qed.

Lemma machine_step c e o e' r :
  valid_config c -> reachable c e -> step c e o = Done (e', r) -> m_call c (machine_of e) o = (machine_of e', r).
Proof.
  intros V R H. pose proof (reachable_inv _ _ (vc_max _ V) R) as I.
  rewrite (view_of _ _ I). rewrite (view_of c e'); [apply step_view; assumption|]. eapply step_inv; [apply (vc_max _ V) | exact I | exact H].
Qed.

Lemma machine_run c ops : forall e e' outs,
  valid_config c -> reachable c e -> run c e ops = Done (e', outs) -> m_run c (machine_of e) ops = (machine_of e', outs).
Proof.
  induction ops as [|o ops IH]; intros e e' outs V R H; cbn [run m_run] in *.
  - injection H as <- <-. reflexivity.
  - apply bind_done in H as [[e1 r] [H1 H]]. apply bind_done in H as [[e2 rs] [H2 H]]. injection H as <- <-.
    rewrite (machine_step _ _ _ _ _ V R H1).
    pose proof (reach_step _ _ _ _ _ R H1) as R1.
    rewrite (IH _ _ _ V R1 H2). reflexivity.
Qed.

Lemma machine_init c e0 : init c = Done e0 -> machine_of e0 = m_start c.
Proof.
  intros H. apply init_fields in H as (E1 & E2 & E3 & E4 & E5 & E6 & E7 & E8 & E9 & E10).
  unfold machine_of, m_start, ledger_start. change (statement_of e0) with (ledger_abs (ex_acc e0) (ex_pos e0)).
  change (position_margin_of e0) with (bal (ex_acc e0) POSITION_MARGIN). change (order_margin_of e0) with (bal (ex_acc e0) ORDER_MARGIN).
  rewrite E2, E4, E5, E6, E10. unfold ledger_abs, bal, margin_balance_of, net_balance. cbn.
  f_equal. f_equal; lia.
Qed.

Lemma machine_history c ops e outs :
  valid_config c -> history c ops e outs -> m_run c (m_start c) ops = (machine_of e, outs).
Proof.
  intros V (e0 & Hi & Hr). rewrite <- (machine_init c e0 Hi). apply machine_run; [exact V | | exact Hr].
  exists [], [], e0. split; [exact Hi | reflexivity].
Qed.

(** ** Consequences *)
Lemma machine_wallet e : m_free (machine_of e) = wallet_of e.
Proof. unfold m_free, machine_of, statement_of, wealth_of. cbn [m_book m_held m_reserved l_cash]. lia. Qed.
