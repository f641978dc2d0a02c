(** Another maintenance margin. *)
From Verif Require Import ProofBase Inv Types Filters Position OrderBook OrderMargin MarketUpdate Exchange Spec SpecConfig SpecMarket SpecFlow SpecMargin SpecPanic
  SpecMachine SpecCrash MachineProof CrashProof OrderProof LiqProof HealthProof BenchProof SpecGear GearProof.


Section Maint.
Variables (c : config) (mm : Z).
Let c' := geared (ct_imr (c_spec c)) mm c.
Hypotheses (V : valid_config c) (V' : valid_config c') (L : ct_mm (c_spec c) <= mm).

Lemma maint_meet ru l : forall m, meet_all_crash c' ru m l = meet_all_crash c ru m l.
Proof. induction l as [|o l IH]; intros m; [reflexivity|]. cbn [meet_all_crash]. change (m_meet c' ru m o) with (m_meet c ru m o). rewrite IH. reflexivity. Qed.
Lemma maint_check m ru : check_crash c' m ru = check_crash c m ru.
Proof. destruct ru; cbn [check_crash]; [reflexivity| | |]; cbv zeta; rewrite maint_meet; reflexivity. Qed.
Lemma maint_due m : 0 <= l_entry (m_book m) -> m_due c m = false -> m_due c' m = false.
Proof.
  intros E. unfold m_due. change (c_scale c') with (c_scale c). change (ct_mm (c_spec c')) with mm. cbv zeta.
  destruct (0 <? m_pos m); [rewrite !Z.leb_gt; nia|]. destruct (m_pos m <? 0); [rewrite !Z.ltb_ge; nia|auto].
Qed.
Lemma maint_exec m o m' r : 0 <= l_entry (m_book m) -> m_exec c m o = Done (m', r) -> unliquidated r = true -> m_exec c' m o = Done (m', r).
Proof.
  intros E H U. destruct o as [ru|sd q uid|sd p q uid|b|id sd p q uid|ru]; try exact H.
  - unfold m_exec in *. cbn [m_crash m_call] in *. change (build_crash c' ru) with (build_crash c ru).
    assert (D : m_due c (with_quote m ru) = false).
    { destruct (m_due c (with_quote m ru)) eqn:D; [|reflexivity]. destruct (first_of _) in H; [discriminate|]. unfold m_update in H. rewrite D in H. injection H as _ <-. discriminate. }
    pose proof (maint_due (with_quote m ru) E D) as D'. unfold update_crash, m_update in *. cbv zeta in *. rewrite D in H. rewrite D', maint_check. exact H.
  - unfold m_exec in *. cbn [m_crash m_call] in *. rewrite maint_check. exact H.
Qed.
Lemma maint_run ops : forall e e1 outs, reachable c e -> run c e ops = Done (e1, outs) -> forallb unliquidated outs = true ->
  m_play c' (machine_of e) ops = Done (machine_of e1, outs).
Proof.
  induction ops as [|o ops IH]; intros e e1 outs R H U; cbn [run m_play] in *.
  - assert (e = e1 /\ outs = []) by (split; congruence). destruct H0 as [-> ->]. reflexivity.
  - pose proof (exec_step c e o V R) as X. destruct (step c e o) as [[e2 r]|w] eqn:S; [|discriminate]. cbn [bind seen] in H, X.
    destruct (run c e2 ops) as [[e3 rs]|w] eqn:T; [|discriminate]. cbn [bind] in H. assert (K : e3 = e1 /\ outs = r :: rs) by (split; congruence). destruct K as [-> ->].
    cbn [forallb] in U. apply andb_prop in U as [U1 U2].
    assert (E : 0 <= l_entry (m_book (machine_of e))) by exact (entry_nonneg c e (vc_scale _ V) (vc_max _ V) R).
    rewrite (maint_exec _ _ _ _ E (eq_sym X) U1), (IH e2 e1 rs (reach_step _ _ _ _ _ R S) T U2). reflexivity.
Qed.
End Maint.

Lemma maint_history c mm ops e outs : valid_config c -> valid_config (geared (ct_imr (c_spec c)) mm c) -> ct_mm (c_spec c) <= mm ->
  history c ops e outs -> forallb unliquidated outs = true ->
  exists e', history (geared (ct_imr (c_spec c)) mm c) ops e' outs /\ machine_of e' = machine_of e.
Proof.
  intros V V' L (e0 & I & R) U. assert (R0 : reachable c e0) by (exists [], [], e0; split; [exact I|reflexivity]).
  pose proof (maint_run c mm V L ops e0 e outs R0 R U) as P. rewrite (machine_init c e0 I) in P.
  destruct (exec_history (geared (ct_imr (c_spec c)) mm c) ops V') as (e0' & I' & S'). change (m_start (geared (ct_imr (c_spec c)) mm c)) with (m_start c) in S'. rewrite P in S'.
  apply seen_of in S' as (e' & R' & M). exists e'. split; [exists e0'; auto | exact M].
Qed.
