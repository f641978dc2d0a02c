(** The leverage decides on what is accepted and when liquidation is due, and on nothing else. *)
From Coq Require Import Permutation.
From Verif Require Import ProofBase Types Accounting Position OrderBook OrderMargin MarketUpdate Exchange Spec SpecConfig SpecMarket SpecFlow SpecMargin
  SpecMachine SpecCrash MachineProof CrashProof Inv OrderProof MarginProof LiqProof CashProof HealthProof TradeFacts SpecGear.

(** ** The same answers lead to the same state *)
Definition same_view (m m' : machine) : Prop :=
  m_book m' = m_book m /\ m_orders m' = m_orders m /\ m_bid m' = m_bid m /\ m_ask m' = m_ask m /\ m_time m' = m_time m /\ m_next m' = m_next m.

Lemma view_id m m' : same_view m m' -> same_view (with_id m) (with_id m').
Proof. unfold same_view, with_id. cbn. intuition congruence. Qed.
Lemma view_orders m m' l n n' : same_view m m' -> same_view (with_orders m l n) (with_orders m' l n').
Proof. unfold same_view, with_orders. cbn. intuition congruence. Qed.
Lemma view_quote m m' ru : same_view m m' -> same_view (with_quote m ru) (with_quote m' ru).
Proof. unfold same_view, with_quote. cbn. intros (H1 & H2 & H3 & H4 & H5 & H6). rewrite H3, H4. auto 10. Qed.
Lemma view_pos m m' : same_view m m' -> m_pos m' = m_pos m.
Proof. intros (H & _). unfold m_pos. rewrite H. reflexivity. Qed.
Lemma view_price m m' sd : same_view m m' -> m_price m' sd = m_price m sd.
Proof. intros (_ & _ & H3 & H4 & _). unfold m_price. rewrite H3, H4. reflexivity. Qed.

Section Gear.
Variables (c : config) (imr mm : Z).
Let c' := geared imr mm c.

Lemma view_fill m m' f : same_view m m' -> same_view (m_fill c m f) (m_fill c' m' f).
Proof. unfold same_view, m_fill. cbn. intros (H1 & H2 & H3 & H4 & H5 & H6). rewrite H1. auto 10. Qed.
Lemma view_taken m m' sd q : same_view m m' -> taken c' m' sd q = taken c m sd q.
Proof. intros S. unfold taken. rewrite (view_price _ _ sd S). reflexivity. Qed.
Lemma view_meet ru m m' o : same_view m m' -> same_view (m_meet c ru m o) (m_meet c' ru m' o).
Proof.
  intros S. unfold m_meet. destruct (touched ru o) as [q|]; [|exact S]. change (c_scale c') with (c_scale c). change (ct_maker (c_spec c')) with (ct_maker (c_spec c)).
  assert (E : m_orders m' = m_orders m) by apply S. rewrite E. apply view_orders, view_fill, S.
Qed.
Lemma view_meets ru l : forall m m', same_view m m' -> same_view (fold_left (m_meet c ru) l m) (fold_left (m_meet c' ru) l m').
Proof. induction l as [|o l IH]; intros m m' S; cbn [fold_left]; [exact S|]. apply IH, view_meet, S. Qed.
Lemma view_meet_all ru m m' : same_view m m' -> same_view (m_meet_all c ru m) (m_meet_all c' ru m').
Proof. intros S. unfold m_meet_all. assert (E : m_orders m' = m_orders m) by apply S. rewrite E. apply view_meets, S. Qed.

Definition agree (a b : machine * result error out) : Prop :=
  accepted (snd a) = accepted (snd b) -> same_view (fst a) (fst b) /\ same_answer (snd a) (snd b).
Lemma agree_err m m' x y : same_view m m' -> agree (m, Err x) (m', Err y).
Proof. intros S _. split; [exact S | exact I]. Qed.

Lemma view_submit m m' sd p q uid : same_view m m' -> agree (m_submit c m sd p q uid) (m_submit c' m' sd p q uid).
Proof.
  intros S. pose proof (view_id _ _ S) as S1. unfold m_submit. cbv zeta. change (ct_qf (c_spec c')) with (ct_qf (c_spec c)). change (ct_pf (c_spec c')) with (ct_pf (c_spec c)).
  change (c_scale c') with (c_scale c). change (c_max c') with (c_max c).
  pose proof S as (Hb & Ho & H3 & H4 & H5 & H6). rewrite Ho, H3, H4, H5, H6.
  destruct (quantity_fault _ _); [apply agree_err, S|]. destruct (price_fault _ _ _ _); [apply agree_err, S|].
  set (l := m_orders m ++ _). set (x := need c l _). set (y := need c' l _).
  destruct (_ <? x), (_ <? y).
  1: apply agree_err, S1.
  1: destruct (match sd with Buy => _ | Sell => _ end); [apply agree_err, S1|]; destruct (_ <=? _); [apply agree_err, S1 | intros K; discriminate].
  1: destruct (match sd with Buy => _ | Sell => _ end); [apply agree_err, S1|]; destruct (_ <=? _); [apply agree_err, S1 | intros K; discriminate].
  destruct (match sd with Buy => _ | Sell => _ end); [apply agree_err, S1|]. destruct (_ <=? _); [apply agree_err, S1|].
  intros _. cbn [fst snd same_answer]. split; [apply view_id, view_orders, S | reflexivity].
Qed.

Lemma view_drop m m' b : same_view m m' -> same_view (m_drop c m b) (m_drop c' m' b).
Proof. intros S. unfold m_drop. assert (E : m_orders m' = m_orders m) by apply S. rewrite E. apply view_orders, S. Qed.

Lemma view_call m m' o : same_view m m' -> agree (m_call c m o) (m_call c' m' o).
Proof.
  intros S. destruct o as [ru|sd q uid|sd p q uid|b|id sd p q uid|ru]; cbn [m_call].
  - unfold m_update. cbv zeta. pose proof (view_quote _ _ ru S) as S1. set (m1 := with_quote m ru) in *. set (m1' := with_quote m' ru) in *. clearbody m1 m1'.
    rewrite (view_pos _ _ S1). destruct (m_due c m1), (m_due c' m1'); intros K; try discriminate; cbn [fst snd same_answer].
    + split; [|exact I]. rewrite (view_taken _ _ _ _ S1). apply view_id, view_fill, S1.
    + split; [apply view_meet_all, S1|]. change (c_scale c') with (c_scale c). assert (E : m_orders m1' = m_orders m1) by apply S1. rewrite E. reflexivity.
  - unfold m_market. change (ct_qf (c_spec c')) with (ct_qf (c_spec c)). destruct (q <=? 0); [apply agree_err, S|].
    destruct (quantity_fault _ _); [apply agree_err, S|]. rewrite (view_taken _ _ _ _ S), (view_price _ _ _ S).
    assert (Et : m_time m' = m_time m) by apply S. assert (En : m_next m' = m_next m) by apply S. rewrite Et, En.
    destruct (m_funded c m sd q), (m_funded c' m' sd q); intros K; try discriminate; cbn [fst snd same_answer].
    + split; [apply view_id, view_fill, S | reflexivity].
    + split; [apply view_id, S | exact I].
  - unfold m_limit. destruct (p <=? 0); [apply agree_err, S|]. destruct (q <=? 0); [apply agree_err, S|]. apply view_submit, S.
  - unfold m_cancel. assert (E : m_orders m' = m_orders m) by apply S. rewrite E. destruct (find _ _) as [o|]; [|apply agree_err, S].
    intros _. split; [apply view_drop, S | reflexivity].
  - unfold m_amend. destruct (p <=? 0); [apply agree_err, S|]. destruct (q <=? 0); [apply agree_err, S|].
    assert (E : m_orders m' = m_orders m) by apply S. rewrite E. destruct (find _ _) as [o|]; [|apply agree_err, S].
    cbv zeta. destruct (_ <=? 0); [apply agree_err, view_drop, S | apply view_submit, view_drop, S].
  - intros _. split; [apply view_meet_all, S | reflexivity].
Qed.
Lemma view_run ops : forall m m', same_view m m' ->
  map accepted (snd (m_run c m ops)) = map accepted (snd (m_run c' m' ops)) ->
  same_view (fst (m_run c m ops)) (fst (m_run c' m' ops)) /\ Forall2 same_answer (snd (m_run c m ops)) (snd (m_run c' m' ops)).
Proof.
  induction ops as [|o ops IH]; intros m m' S; cbn [m_run]; [split; [exact S | constructor]|].
  pose proof (view_call m m' o S) as A. destruct (m_call c m o) as [m1 x], (m_call c' m' o) as [m1' x'].
  specialize (IH m1 m1'). destruct (m_run c m1 ops) as [m2 xs], (m_run c' m1' ops) as [m2' xs']. cbn [fst snd map] in *. intros K.
  injection K as K1 K2. destruct (A K1) as [A1 A2]. cbn [fst snd] in *. destruct (IH A1 K2) as [I1 I2]. split; [exact I1 | constructor; assumption].
Qed.

Lemma view_of e e' : same_view (machine_of e) (machine_of e') <-> same_but_margins e e'.
Proof.
  unfold same_view, same_but_margins, machine_of, statement_of. cbn [m_book m_orders m_bid m_ask m_time m_next]. split.
  - intros (H1 & H2 & H3 & H4 & H5 & H6). pose proof (f_equal l_qty H1). pose proof (f_equal l_entry H1). pose proof (f_equal l_due H1). pose proof (f_equal l_cash H1). pose proof (f_equal l_paid H1).
    cbn in *. auto 12.
  - intros (H1 & H2 & H3 & H4 & H5 & H6 & H7 & H8 & H9 & H10). rewrite H1, H2, H3, H4, H5, H6, H7, H8, H9, H10. auto 12.
Qed.

Lemma gear_neutral ops e outs e' outs' : valid_config c -> valid_config c' ->
  history c ops e outs -> history c' ops e' outs' -> map accepted outs = map accepted outs' ->
  same_but_margins e e' /\ Forall2 same_answer outs outs'.
Proof.
  intros V V' H H' K. pose proof (machine_history c _ _ _ V H) as M. pose proof (machine_history c' _ _ _ V' H') as M'.
  assert (S : same_view (m_start c) (m_start c')) by (repeat split).
  pose proof (view_run ops _ _ S) as R. rewrite M, M' in R. cbn [fst snd] in R. destruct (R K) as [R1 R2]. split; [apply view_of, R1 | exact R2].
Qed.

(** ** Acceptance *)
Hypothesis V : valid_config c.
Hypothesis V' : valid_config c'.
Hypothesis L : more_leverage imr mm c.

Lemma need_less l n : good_book l -> need c' l n <= need c l n.
Proof.
  intros G. unfold need, requirement. change (c_kind c') with (c_kind c). change (c_scale c') with (c_scale c). pose proof (vc_scale _ V).
  apply Z.quot_le_mono; [assumption|]. apply Z.mul_le_mono_nonneg_l; [|apply L].
  apply Z.max_le_iff. left. apply cost_nonneg; [assumption|]. intros x Hx. eapply hedge_bounds; [| |exact Hx]; [lia|].
  intros y Hy. apply (Permutation_in _ (ranking_perm Buy l)) in Hy. apply pairs_in in Hy as (o & Ho & _ & ->). apply G, Ho.
Qed.
Lemma margin_less q p : 0 <= q -> 0 < p -> margin_at c' q p <= margin_at c q p.
Proof.
  intros Hq Hp. unfold margin_at. change (c_kind c') with (c_kind c). change (c_scale c') with (c_scale c). pose proof (vc_scale _ V).
  apply Z.quot_le_mono; [assumption|]. apply Z.mul_le_mono_nonneg_l; [|apply L]. unfold value; destruct (c_kind c); apply Z.quot_pos; nia.
Qed.

Definition easier (m m' : machine) : Prop :=
  same_view m m' /\ m_held m' <= m_held m /\ m_reserved m = need c (m_orders m) (m_pos m) /\ m_reserved m' = need c' (m_orders m') (m_pos m').

Lemma easier_free m m' : good_book (m_orders m) -> easier m m' -> m_free m <= m_free m' /\ m_free m + m_held m <= m_free m' + m_held m'.
Proof.
  intros G (S & H & R & R'). pose proof (view_pos _ _ S) as P. pose proof S as (B & O & _). rewrite P, O in R'.
  pose proof (need_less (m_orders m) (m_pos m) G). unfold m_free. rewrite B. lia.
Qed.
Lemma funded_more m m' sd q : good_book (m_orders m) -> easier m m' -> 0 < q -> 0 < m_price m sd -> m_funded c m sd q = true -> m_funded c' m' sd q = true.
Proof.
  intros G E Hq Hp. destruct (easier_free _ _ G E) as [F1 F2]. pose proof E as (S & _). unfold m_funded. cbv zeta.
  rewrite !(view_taken _ _ _ _ S), (view_pos _ _ S), (view_price _ _ _ S). change (c_kind c') with (c_kind c). change (c_scale c') with (c_scale c).
  destruct ((m_pos m =? 0) || _).
  - rewrite !Z.leb_le. pose proof (margin_less q (m_price m sd) ltac:(lia) Hp). lia.
  - rewrite !orb_true_iff. intros [K|K]; [left; exact K|]. destruct (Z.leb_spec q (Z.abs (m_pos m))); [left; reflexivity|]. right.
    apply Z.leb_le in K. apply Z.leb_le. pose proof (margin_less (q - Z.abs (m_pos m)) (m_price m sd) ltac:(lia) Hp). lia.
Qed.
Lemma submit_more m m' sd p q uid : good_book (m_orders m) -> easier m m' -> 0 < p -> 0 < q ->
  accepted (snd (m_submit c m sd p q uid)) = true -> accepted (snd (m_submit c' m' sd p q uid)) = true.
Proof.
  intros G E Hp Hq. destruct (easier_free _ _ G E) as [F1 F2]. pose proof E as (S & Hh & R & R'). pose proof S as (Hb & Ho & H3 & H4 & H5 & H6).
  unfold m_submit. cbv zeta. change (ct_qf (c_spec c')) with (ct_qf (c_spec c)). change (ct_pf (c_spec c')) with (ct_pf (c_spec c)).
  change (c_scale c') with (c_scale c). change (c_max c') with (c_max c). rewrite <- R, <- R'. rewrite (view_pos _ _ S).
  rewrite Ho, H3, H4, H5, H6. destruct (quantity_fault _ _); [discriminate|]. destruct (price_fault _ _ _ _); [discriminate|].
  set (l := m_orders m ++ _).
  assert (Gl : good_book l).
  { unfold l. intros o O. apply in_app_or in O as [O|[<-|[]]]; [apply G, O | cbn; lia]. }
  pose proof (need_less l (m_pos m) Gl) as N.
  assert (F3 : m_free m + m_reserved m <= m_free m' + m_reserved m') by (unfold m_free; rewrite Hb; lia).
  destruct (Z.ltb_spec (m_free m + m_reserved m) (need c l (m_pos m))); [discriminate|].
  destruct (Z.ltb_spec (m_free m' + m_reserved m') (need c' l (m_pos m))); [lia|].
  destruct (match sd with Buy => _ | Sell => _ end); [discriminate|]. destruct (_ <=? _); [discriminate | auto].
Qed.
Lemma take_out_in p l o : In o (take_out p l) -> In o l.
Proof.
  induction l as [|x l IH]; cbn [take_out]; [auto|]. destruct (p x); [|intros [->|H]; [left; reflexivity | right; apply IH, H]].
  destruct l as [|y l']; [intros []|]. intros H. right. rewrite (app_removelast_last x (l := y :: l')) by discriminate. apply in_or_app.
  destruct H as [<-|H]; [right; left; reflexivity | left; exact H].
Qed.

(** One accepted order. *)
Lemma order_more m m' o : good_book (m_orders m) -> easier m m' ->
  match o with OpMarket sd q _ => 0 < m_price m sd | OpUpdate _ | OpCheck _ => False | _ => True end ->
  accepted (snd (m_call c m o)) = true -> accepted (snd (m_call c' m' o)) = true.
Proof.
  intros G E Q. pose proof E as (S & Hh & R & R'). assert (Eo : m_orders m' = m_orders m) by apply S.
  destruct o as [ru|sd q uid|sd p q uid|b|id sd p q uid|ru]; cbn [m_call]; try contradiction.
  - unfold m_market. change (ct_qf (c_spec c')) with (ct_qf (c_spec c)). destruct (Z.leb_spec q 0); [discriminate|]. destruct (quantity_fault _ _); [discriminate|].
    destruct (m_funded c m sd q) eqn:F; [|discriminate]. rewrite (funded_more m m' sd q G E ltac:(lia) Q F). auto.
  - unfold m_limit. destruct (Z.leb_spec p 0); [discriminate|]. destruct (Z.leb_spec q 0); [discriminate|]. apply submit_more; try assumption; lia.
  - unfold m_cancel. rewrite Eo. destruct (find _ _); auto.
  - unfold m_amend. destruct (Z.leb_spec p 0); [discriminate|]. destruct (Z.leb_spec q 0); [discriminate|]. rewrite Eo. destruct (find _ _) as [o|]; [|discriminate].
    cbv zeta. destruct (Z.leb_spec (q - lo_filled_qty o) 0); [discriminate|]. apply submit_more; try assumption; try lia.
    + unfold m_drop. cbn [with_orders m_orders]. intros x X. apply G. exact (take_out_in _ _ _ X).
    + split; [apply view_drop, S|]. split; [exact Hh|]. split; reflexivity.
Qed.

Lemma gear_accepts e e' o e1 r e1' r' : reachable c e -> reachable c' e' -> same_but_margins e e' ->
  reserved_right c e -> reserved_right c' e' -> position_margin_of e' <= position_margin_of e ->
  match o with OpUpdate _ | OpCheck _ => False | _ => True end ->
  step c e o = Done (e1, Ok r) -> step c' e' o = Done (e1', r') -> r' = Ok r /\ same_but_margins e1 e1'.
Proof.
  intros R R' S Rr Rr' Hh Q E E'. apply view_of in S.
  pose proof (machine_step c e o e1 (Ok r) V R E) as M. pose proof (machine_step c' e' o e1' r' V' R' E') as M'.
  assert (G : good_book (ex_active e)) by (apply (good_of_inv c), (reachable_inv _ _ (vc_max _ V) R)).
  assert (Ea : easier (machine_of e) (machine_of e')) by (split; [exact S|]; split; [exact Hh|]; split; assumption).
  assert (A : accepted (snd (m_call c' (machine_of e') o)) = true).
  { apply (order_more (machine_of e) _ o G Ea); [|rewrite M; reflexivity]. destruct o as [ru|sd q uid|sd p q uid|b|id sd p q uid|ru]; try exact Q.
    assert (X : exists f, r = OutMarket f).
    { cbn [m_call] in M. unfold m_market in M. destruct (q <=? 0); [discriminate|]. destruct (quantity_fault _ _); [discriminate|]. destruct (m_funded _ _ _ _); [|discriminate].
      pose proof (f_equal snd M) as K. cbn [snd] in K. injection K as <-. eauto. }
    destruct X as [f ->]. destruct (market_filled c e sd q uid e1 f V R E) as (_ & P & _). unfold m_price. cbn [machine_of m_bid m_ask]. exact P. }
  pose proof (view_call _ _ o S) as Ag. unfold agree in Ag. rewrite A, M in Ag. destruct (Ag eq_refl) as [A1 A2]. rewrite M' in A1, A2. cbn [fst snd] in A1, A2.
  split; [destruct r'; [cbn in A2; congruence | contradiction] | apply view_of, A1].
Qed.

(** ** Liquidation *)
Lemma due_more m m' : same_view m m' -> 0 <= l_entry (m_book m) -> m_due c m = true -> m_due c' m' = true.
Proof.
  intros S He. pose proof S as (B & O & H3 & H4 & _). unfold m_due. cbv zeta. rewrite (view_pos _ _ S), B, H3, H4. change (c_scale c') with (c_scale c).
  change (ct_mm (c_spec c')) with mm. pose proof (proj2 L) as Lm. destruct (0 <? m_pos m); [rewrite !Z.leb_le; nia|]. destruct (m_pos m <? 0); [rewrite !Z.ltb_lt; nia | auto].
Qed.
Lemma gear_liquidates e e' ru e1 x e1' r' : reachable c e -> reachable c' e' -> same_but_margins e e' ->
  step c e (OpUpdate ru) = Done (e1, Err x) -> step c' e' (OpUpdate ru) = Done (e1', r') ->
  x = ERisk Liquidate /\ r' = Err (ERisk Liquidate) /\ same_but_margins e1 e1'.
Proof.
  intros R R' S E E'. apply view_of in S.
  pose proof (machine_step c e _ e1 (Err x) V R E) as M. pose proof (machine_step c' e' _ e1' r' V' R' E') as M'. cbn [m_call] in M, M'.
  pose proof (view_call _ _ (OpUpdate ru) S) as Ag. unfold agree in Ag. cbn [m_call] in Ag. rewrite M, M' in Ag. cbn [fst snd] in Ag.
  unfold m_update in M, M'. destruct (m_due c (with_quote (machine_of e) ru)) eqn:D; [|discriminate].
  assert (D' : m_due c' (with_quote (machine_of e') ru) = true).
  { apply (due_more (with_quote (machine_of e) ru)); [apply view_quote, S | | exact D]. exact (entry_nonneg c e (vc_scale _ V) (vc_max _ V) R). }
  rewrite D' in M'. pose proof (f_equal snd M) as K. pose proof (f_equal snd M') as K'. cbn [snd] in K, K'. injection K as <-. subst r'.
  split; [reflexivity|]. split; [reflexivity|]. apply view_of. apply Ag. reflexivity.
Qed.
End Gear.
