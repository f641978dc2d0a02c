(** Looser limits change nothing that passed the old ones. *)
From Verif Require Import ProofBase Inv Types Filters Position OrderBook OrderMargin MarketUpdate Exchange Spec SpecConfig SpecMarket SpecFlow SpecMargin SpecPanic
  SpecMachine SpecCrash MachineProof CrashProof OrderProof HealthProof BenchProof SpecLoose.

Lemma quantity_refused f q x : quantity_fault f q = Some x -> refused (Err (EOrder x)) = true.
Proof. unfold quantity_fault. intros H. repeat match type of H with (if ?b then _ else _) = _ => destruct b end; inversion H; reflexivity. Qed.
Lemma price_refused s f k p x : price_fault s f k p = Some x -> refused (Err (EOrder x)) = true.
Proof. unfold price_fault. intros H. repeat match type of H with (if ?b then _ else _) = _ => destruct b end; inversion H; reflexivity. Qed.
Lemma first_none l : first_of l = None -> forall x, In x l -> x = None.
Proof. induction l as [|[w|] l IH]; cbn [first_of]; [intros _ x []|discriminate|]. intros H x [<-|X]; auto. Qed.

Section Loose.
Variables (c : config) (max : Z) (pf : price_filter) (qf : quantity_filter) (H : looser c max pf qf).
Let c' := relax c max pf qf.

Lemma loose_submit m sd p q uid m' r : m_submit c m sd p q uid = (m', r) -> refused r = false -> m_submit c' m sd p q uid = (m', r).
Proof.
  unfold m_submit. destruct (quantity_fault (ct_qf (c_spec c)) q) eqn:Q. { intros E F. injection E as _ <-. rewrite (quantity_refused _ _ _ Q) in F. discriminate. }
  destruct (price_fault (c_scale c) _ _ _) eqn:P. { intros E F. injection E as _ <-. rewrite (price_refused _ _ _ _ _ P) in F. discriminate. }
  change (ct_qf (c_spec c')) with qf. change (ct_pf (c_spec c')) with pf. change (c_scale c') with (c_scale c). change (c_max c') with max.
  rewrite (ls_qty _ _ _ _ H _ Q), (ls_price _ _ _ _ H _ _ P). cbv zeta. set (o := {| lo_uid := _ |}).
  change (need c' (m_orders m) (m_pos m)) with (need c (m_orders m) (m_pos m)). change (need c' (m_orders m ++ [o]) (m_pos m)) with (need c (m_orders m ++ [o]) (m_pos m)).
  destruct (_ <? need _ _ _); [auto|]. destruct (match sd with Buy => _ | Sell => _ end); [auto|].
  destruct (Z.leb_spec (c_max c) (Z.of_nat (length (m_orders m)))). { intros E F. injection E as _ <-. discriminate. }
  intros E _. pose proof (ls_max _ _ _ _ H). destruct (Z.leb_spec max (Z.of_nat (length (m_orders m)))); [lia|]. exact E.
Qed.
Lemma loose_submit_crash m sd p q uid : submit_crash c m sd p q uid = None -> refused (snd (m_submit c m sd p q uid)) = false -> submit_crash c' m sd p q uid = None.
Proof.
  unfold submit_crash. destruct (m_submit c m sd p q uid) as [m' r] eqn:E. cbn [snd]. intros K F. rewrite (loose_submit _ _ _ _ _ _ _ E F). exact K.
Qed.

Lemma loose_call m o m' r : m_crash c m o = None -> m_call c m o = (m', r) -> refused r = false -> m_call c' m o = (m', r).
Proof.
  intros K E F. destruct o as [ru|sd q uid|sd p q uid|b|id sd p q uid|ru]; cbn [m_call] in *; try exact E.
  - unfold m_market in *. destruct (q <=? 0); [exact E|]. destruct (quantity_fault (ct_qf (c_spec c)) q) eqn:Q. { injection E as _ <-. rewrite (quantity_refused _ _ _ Q) in F. discriminate. }
    change (ct_qf (c_spec c')) with qf. rewrite (ls_qty _ _ _ _ H _ Q). exact E.
  - unfold m_limit in *. destruct (p <=? 0); [exact E|]. destruct (q <=? 0); [exact E|]. apply loose_submit; assumption.
  - unfold m_amend in *. destruct (p <=? 0); [exact E|]. destruct (q <=? 0); [exact E|]. destruct (find _ _) as [o|]; [|exact E].
    change (m_drop c' m (ByOrderId id)) with (m_drop c m (ByOrderId id)). cbv zeta in *. destruct (_ <=? 0); [exact E|]. apply loose_submit; assumption.
Qed.

Lemma same_meet ru l : forall m, meet_all_crash c' ru m l = meet_all_crash c ru m l.
Proof.
  induction l as [|o l IH]; intros m; [reflexivity|]. cbn [meet_all_crash]. change (m_meet c' ru m o) with (m_meet c ru m o). rewrite IH. reflexivity.
Qed.
Lemma same_check m ru : check_crash c' m ru = check_crash c m ru.
Proof.
  destruct ru; cbn [check_crash]; [reflexivity| | |]; cbv zeta; rewrite same_meet; reflexivity.
Qed.
Lemma loose_data ru : c_dbg c = true -> data_valid (ct_pf (c_spec c)) ru = true -> data_valid pf ru = true.
Proof.
  intros D. pose proof (ls_data _ _ _ _ H D) as P. destruct ru as [b|t|k|l b f]; cbn [data_valid]; unfold quote_valid; auto; intros K;
  repeat rewrite andb_true_iff in *; intuition.
Qed.
Lemma loose_crash m o m' r : m_crash c m o = None -> m_call c m o = (m', r) -> refused r = false -> m_crash c' m o = None.
Proof.
  intros K E F. destruct o as [ru|sd q uid|sd p q uid|b|id sd p q uid|ru]; cbn [m_crash m_call] in *; try exact K.
  - pose proof (first_none _ K) as K1. assert (KB := K1 _ (or_introl eq_refl)). assert (KU := K1 _ (or_intror (or_introl eq_refl))). clear K1 K.
    change (build_crash c' ru) with (build_crash c ru). rewrite KB. cbn [first_of]. unfold update_crash in *. cbv zeta in *. pose proof (first_none _ KU) as K1.
    assert (KD := K1 _ (or_introl eq_refl)). assert (KL := K1 _ (or_intror (or_introl eq_refl))). clear K1 KU.
    assert (ED : in_debug c' (demand (data_valid (ct_pf (c_spec c')) ru) PInvalidUpdateDebug) = None).
    { unfold in_debug in *. change (c_dbg c') with (c_dbg c). change (ct_pf (c_spec c')) with pf. destruct (c_dbg c) eqn:D; [|reflexivity].
      unfold demand in *. destruct (data_valid (ct_pf (c_spec c)) ru) eqn:V; [|discriminate]. rewrite (loose_data ru D V). reflexivity. }
    rewrite ED. cbn [first_of]. change (m_due c' (with_quote m ru)) with (m_due c (with_quote m ru)).
    destruct (m_due c (with_quote m ru)).
    + pose proof (first_none _ KL) as K1. assert (KQ := K1 _ (or_introl eq_refl)). assert (KT := K1 _ (or_intror (or_introl eq_refl))). clear K1 KL.
      change (take_crash c' (with_quote m ru)) with (take_crash c (with_quote m ru)). rewrite KT. change (ct_qf (c_spec c')) with qf.
      unfold demand in *. destruct (quantity_fault (ct_qf (c_spec c)) _) eqn:Q; [discriminate|]. rewrite (ls_qty _ _ _ _ H _ Q). reflexivity.
    + rewrite same_check, KL. reflexivity.
  - unfold market_crash, m_market in *. destruct (q <=? 0); [reflexivity|]. destruct (quantity_fault (ct_qf (c_spec c)) q) eqn:Q. { injection E as _ <-. rewrite (quantity_refused _ _ _ Q) in F. discriminate. }
    change (ct_qf (c_spec c')) with qf. rewrite (ls_qty _ _ _ _ H _ Q). exact K.
  - unfold limit_crash, m_limit in *. destruct (p <=? 0); [reflexivity|]. destruct (q <=? 0); [reflexivity|]. cbn [orb] in *.
    apply loose_submit_crash; [exact K|]. rewrite E. exact F.
  - unfold amend_crash, m_amend in *. destruct (p <=? 0); [reflexivity|]. destruct (q <=? 0); [reflexivity|]. cbn [orb] in *. destruct (find _ _) as [o|]; [|reflexivity]. cbv zeta in *.
    pose proof (first_none _ K) as K1. assert (KC := K1 _ (or_introl eq_refl)). assert (KS := K1 _ (or_intror (or_introl eq_refl))). clear K1 K.
    change (cancel_crash c' m (ByOrderId id)) with (cancel_crash c m (ByOrderId id)). rewrite KC. cbn [first_of].
    change (m_drop c' m (ByOrderId id)) with (m_drop c m (ByOrderId id)). destruct (_ <=? 0); [reflexivity|].
    rewrite loose_submit_crash; [reflexivity|exact KS|]. rewrite E. exact F.
  - rewrite same_check. exact K.
Qed.

Lemma loose_panics m o w : m_crash c m o = Some w -> m_crash c' m o = Some w \/ w = PInvalidUpdateDebug \/ w = PLiquidateSubmit.
Proof.
  intros K. destruct o as [ru|sd q uid|sd p q uid|b|id sd p q uid|ru]; cbn [m_crash] in *; try (left; exact K).
  - change (build_crash c' ru) with (build_crash c ru). destruct (build_crash c ru) as [x|]; [left; exact K|]. cbn [first_of] in *. unfold update_crash in *. cbv zeta in *.
    destruct (in_debug c (demand (data_valid (ct_pf (c_spec c)) ru) PInvalidUpdateDebug)) as [x|] eqn:KD.
    { right; left. cbn [first_of] in K. unfold in_debug, demand in KD. destruct (c_dbg c); [|discriminate]. destruct (data_valid _ _); [discriminate|]. congruence. }
    assert (ED : in_debug c' (demand (data_valid (ct_pf (c_spec c')) ru) PInvalidUpdateDebug) = None).
    { unfold in_debug in *. change (c_dbg c') with (c_dbg c). change (ct_pf (c_spec c')) with pf. destruct (c_dbg c) eqn:D; [|reflexivity].
      unfold demand in *. destruct (data_valid (ct_pf (c_spec c)) ru) eqn:V; [|discriminate]. rewrite (loose_data ru D V). reflexivity. }
    rewrite ED. cbn [first_of] in *. change (m_due c' (with_quote m ru)) with (m_due c (with_quote m ru)).
    destruct (m_due c (with_quote m ru)).
    + change (take_crash c' (with_quote m ru)) with (take_crash c (with_quote m ru)). change (ct_qf (c_spec c')) with qf. unfold demand in K |- *.
      destruct (quantity_fault (ct_qf (c_spec c)) _) eqn:Q. { right; right. cbn [first_of] in K. congruence. } rewrite (ls_qty _ _ _ _ H _ Q). left. exact K.
    + rewrite same_check. left. exact K.
  - left. unfold market_crash in *. destruct (q <=? 0); [exact K|]. destruct (quantity_fault (ct_qf (c_spec c)) q) eqn:Q; [discriminate|].
    change (ct_qf (c_spec c')) with qf. rewrite (ls_qty _ _ _ _ H _ Q). exact K.
  - left. unfold limit_crash in *. destruct ((p <=? 0) || (q <=? 0)); [exact K|]. unfold submit_crash in *. destruct (m_submit c m sd p q uid) as [m' [y|y]] eqn:E; [|discriminate].
    rewrite (loose_submit _ _ _ _ _ _ _ E eq_refl). exact K.
  - left. unfold amend_crash in *. destruct ((p <=? 0) || (q <=? 0)); [exact K|]. destruct (find _ _) as [o|]; [|exact K]. cbv zeta in *.
    change (cancel_crash c' m (ByOrderId id)) with (cancel_crash c m (ByOrderId id)). destruct (cancel_crash c m (ByOrderId id)); [exact K|].
    change (m_drop c' m (ByOrderId id)) with (m_drop c m (ByOrderId id)). destruct (_ <=? 0); [exact K|]. cbn [first_of] in *. unfold submit_crash in *.
    destruct (m_submit c _ _ _ _ _) as [m' [y|y]] eqn:E; [|discriminate]. rewrite (loose_submit _ _ _ _ _ _ _ E eq_refl). exact K.
  - left. rewrite same_check. exact K.
Qed.

Lemma loose_play ops : forall m m' outs, m_play c m ops = Done (m', outs) -> forallb (fun r => negb (refused r)) outs = true -> m_play c' m ops = Done (m', outs).
Proof.
  induction ops as [|o ops IH]; intros m m' outs E F; [exact E|]. cbn [m_play] in *. unfold m_exec in *.
  destruct (m_crash c m o) eqn:K; [discriminate|]. destruct (m_call c m o) as [m1 x] eqn:C. destruct (m_play c m1 ops) as [[m2 xs]|w] eqn:P; [|discriminate].
  assert (E2 : outs = x :: xs /\ m' = m2) by (split; congruence). destruct E2 as [-> ->]. cbn [forallb] in F. apply andb_prop in F as [F1 F2]. apply negb_true_iff in F1.
  rewrite (loose_crash _ _ _ _ K C F1), (loose_call _ _ _ _ K C F1), (IH _ _ _ P F2). reflexivity.
Qed.
End Loose.

Lemma loose_history c max pf qf ops e outs : valid_config c -> valid_config (relax c max pf qf) -> looser c max pf qf ->
  history c ops e outs -> forallb (fun r => negb (refused r)) outs = true ->
  exists e', history (relax c max pf qf) ops e' outs /\ machine_of e' = machine_of e.
Proof.
  intros V V' L (e0 & I & R) F. destruct (exec_history (relax c max pf qf) ops V') as (e0' & I' & S').
  destruct (exec_history c ops V) as (e1 & I1 & S). assert (e1 = e0) by congruence. subst e1. rewrite R in S. cbn [seen] in S. symmetry in S.
  change (m_start (relax c max pf qf)) with (m_start c) in S'. rewrite (loose_play c max pf qf L ops _ _ _ S F) in S'. apply seen_of in S' as (e' & R' & M).
  exists e'. split; [exists e0'; auto | exact M].
Qed.

Lemma loose_step_panics c max pf qf e e' o w : valid_config c -> valid_config (relax c max pf qf) -> looser c max pf qf ->
  reachable c e -> reachable (relax c max pf qf) e' -> machine_of e' = machine_of e -> step c e o = Panic w ->
  step (relax c max pf qf) e' o = Panic w \/ w = PInvalidUpdateDebug \/ w = PLiquidateSubmit.
Proof.
  intros V V' L R R' M E. pose proof (exec_step c e o V R) as X. rewrite E in X. cbn [seen] in X. unfold m_exec in X. destruct (m_crash c (machine_of e) o) as [x|] eqn:K; [|discriminate].
  assert (x = w) by congruence. subst x. destruct (loose_panics c max pf qf L _ _ _ K) as [K'|K']; [left|right; exact K'].
  pose proof (exec_step _ e' o V' R') as X'. rewrite M in X'. unfold m_exec in X'. rewrite K' in X'. destruct (step (relax c max pf qf) e' o) as [[e2 r]|v]; cbn [seen] in X'; [discriminate|congruence].
Qed.

(** ** Wider bounds *)
Lemma mod_divides a b x : (b | a) -> x mod a = 0 -> a <> 0 -> (b | x).
Proof. intros D M N. apply Z.mod_divide in M; [|exact N]. etransitivity; eassumption. Qed.
Lemma wider_looser c max pf qf : valid_config c -> wider c max pf qf -> looser c max pf qf.
Proof.
  intros V W. pose proof (vc_ptick _ V) as TP. pose proof (vc_qtick _ V) as TQ. destruct W as [WM (P0 & PD & PS) PMin PMax PU PDn (Q0 & QD & QS) QMin QMax]. constructor; [exact WM| | |].
  - intros q. unfold quantity_fault. intros F.
    destruct (match qf_max (ct_qf (c_spec c)) with Some x => x <? q | None => false end) eqn:A; [discriminate|].
    destruct (match qf_min (ct_qf (c_spec c)) with Some x => q <? x | None => false end) eqn:B; [discriminate|].
    destruct (_ =? 0) eqn:M in F; [|discriminate]. clear F. apply Z.eqb_eq in M.
    assert (A' : match qf_max qf with Some x => x <? q | None => false end = false).
    { unfold higher_max in QMax. destruct (qf_max qf), (qf_max (ct_qf (c_spec c))); try tauto; lia. }
    assert (B' : match qf_min qf with Some x => q <? x | None => false end = false).
    { unfold lower_min in QMin. destruct (qf_min qf), (qf_min (ct_qf (c_spec c))); try tauto; lia. }
    rewrite A', B'. fold (step_of (qf_min qf)). fold (step_of (qf_min (ct_qf (c_spec c)))) in M. pose proof (mod_divides _ _ _ QD M TQ) as X.
    assert (Y : (q - step_of (qf_min qf)) mod qf_tick qf = 0).
    { apply Z.mod_divide; [exact Q0|]. replace (q - step_of (qf_min qf)) with ((q - step_of (qf_min (ct_qf (c_spec c)))) + (step_of (qf_min (ct_qf (c_spec c))) - step_of (qf_min qf))) by lia.
      apply Z.divide_add_r; assumption. }
    rewrite Y. reflexivity.
  - intros k p. unfold price_fault. intros F.
    destruct (match pf_max (ct_pf (c_spec c)) with Some x => x <? p | None => false end) eqn:A; [discriminate|].
    destruct (match pf_min (ct_pf (c_spec c)) with Some x => p <? x | None => false end) eqn:B; [discriminate|].
    destruct (negb (_ =? 0)) eqn:M in F; [discriminate|]. apply negb_false_iff, Z.eqb_eq in M.
    assert (A' : match pf_max pf with Some x => x <? p | None => false end = false).
    { unfold higher_max in PMax. destruct (pf_max pf), (pf_max (ct_pf (c_spec c))); try tauto; lia. }
    assert (B' : match pf_min pf with Some x => p <? x | None => false end = false).
    { unfold lower_min in PMin. destruct (pf_min pf), (pf_min (ct_pf (c_spec c))); try tauto; lia. }
    rewrite A', B'. fold (step_of (pf_min pf)). fold (step_of (pf_min (ct_pf (c_spec c)))) in M. pose proof (mod_divides _ _ _ PD M TP) as X.
    assert (Y : (p - step_of (pf_min pf)) mod pf_tick pf = 0).
    { apply Z.mod_divide; [exact P0|]. replace (p - step_of (pf_min pf)) with ((p - step_of (pf_min (ct_pf (c_spec c)))) + (step_of (pf_min (ct_pf (c_spec c))) - step_of (pf_min pf))) by lia.
      apply Z.divide_add_r; assumption. }
    rewrite Y. cbn [Z.eqb negb]. destruct (negb (pf_up (ct_pf (c_spec c)) =? 0) && _) eqn:U in F; [discriminate|].
    assert (U' : negb (pf_up pf =? 0) && (Z.quot (k * pf_up pf) (c_scale c) <? p) = false) by (destruct PU as [-> | ->]; [reflexivity|exact U]). rewrite U'.
    destruct (negb (pf_down (ct_pf (c_spec c)) =? 0) && _) eqn:D in F; [discriminate|].
    assert (D' : negb (pf_down pf =? 0) && (p <? Z.quot (k * pf_down pf) (c_scale c)) = false) by (destruct PDn as [-> | ->]; [reflexivity|exact D]). rewrite D'. reflexivity.
  - intros _ p. unfold price_valid, price_in. rewrite !andb_true_iff. intros [[A B] M]. apply Z.eqb_eq in M.
    split; [split|].
    + unfold lower_min in PMin. destruct (pf_min pf), (pf_min (ct_pf (c_spec c))); try tauto; try reflexivity. apply orb_true_iff in A. apply orb_true_iff. lia.
    + unfold higher_max in PMax. destruct (pf_max pf), (pf_max (ct_pf (c_spec c))); try tauto; try reflexivity. apply orb_true_iff in B. apply orb_true_iff. lia.
    + apply Z.eqb_eq. apply Z.mod_divide; [exact P0|]. exact (mod_divides _ _ _ PD M TP).
Qed.
