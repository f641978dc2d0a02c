(** Cancelling before or after market data that fills nothing. *)
From Coq Require Import Permutation.
From Verif Require Import ProofBase BookLemmas Inv Types Accounting Filters Position OrderBook OrderMargin MarketUpdate Exchange Spec SpecConfig SpecMarket SpecFlow SpecMargin SpecPanic
  SpecMachine SpecCrash MachineProof CrashProof MarginProof OrderProof HealthProof CashProof ThinProof ReliefProof AgainProof.

Lemma drop_quote c m ru b : with_quote (m_drop c m b) ru = m_drop c (with_quote m ru) b.
Proof. reflexivity. Qed.
Lemma drop_sub c m b o x : find (named b) (m_orders m) = Some x -> In o (m_orders (m_drop c m b)) -> In o (m_orders m).
Proof. intros F H. rewrite (take_perm _ _ _ F). right. exact H. Qed.
(** An update that fills nothing can only panic on its trades being empty. *)
Lemma idle_crash c ru l : (forall o, In o l -> touched ru o = None) -> forall m,
  meet_all_crash c ru m l = match l with [] => None | _ => match ru with RTrade t => in_debug c (demand (0 <? tr_qty t) PTradeQtyDebug) | _ => None end end.
Proof.
  induction l as [|o l IH]; intros H m; [reflexivity|]. cbn [meet_all_crash]. rewrite IH by (intros x X; apply H; right; exact X). unfold meet_crash. rewrite (H o (or_introl eq_refl)).
  destruct ru; cbn [first_of]; destruct l; try reflexivity; destruct (in_debug _ _); reflexivity.
Qed.

Lemma idle_check c ru m m' : (forall o, In o (m_orders m) -> touched ru o = None) -> (forall o, In o (m_orders m') -> touched ru o = None) -> m_orders m <> [] ->
  m_reserved m' = need c (m_orders m') (m_pos m') -> m_free m <= m_free m' -> check_crash c m ru = None -> check_crash c m' ru = None.
Proof.
  intros N N' E L F K. assert (X : match ru with RBba _ => True | _ => first_of [ meet_all_crash c ru m (m_orders m); in_debug c (demand (m_reserved m =? need c (m_orders m) (m_pos m)) PEndMarginDebug); demand (0 <=? m_free m) PWalletNegative ] = None end).
  { destruct ru; [exact Logic.I| | |]; unfold check_crash in K; cbv zeta in K; unfold m_meet_all in K; rewrite (meet_none c _ _ N) in K; exact K. }
  assert (Y : check_crash c m' ru = match ru with RBba _ => None | _ => first_of [ meet_all_crash c ru m' (m_orders m'); in_debug c (demand (m_reserved m' =? need c (m_orders m') (m_pos m')) PEndMarginDebug); demand (0 <=? m_free m') PWalletNegative ] end).
  { destruct ru; [reflexivity| | |]; unfold check_crash; cbv zeta; unfold m_meet_all; rewrite (meet_none c _ _ N'); reflexivity. }
  rewrite Y. clear Y K. rewrite (idle_crash c ru _ N'). rewrite (idle_crash c ru _ N) in X.
  destruct ru; [reflexivity| | |]; apply first_none in X as [X1 X2]; apply first_none in X2 as [_ X2]; apply first_none in X2 as [X2 _];
    (destruct (m_orders m) as [|o l]; [contradiction|]); unfold demand in X2; (destruct (Z.leb_spec 0 (m_free m)); [|discriminate]); rewrite L, Z.eqb_refl;
    (assert (Z : 0 <=? m_free m' = true) by lia); rewrite Z; unfold in_debug, demand in *; destruct (m_orders m'), (c_dbg c); cbn [first_of]; rewrite ?X1; reflexivity.
Qed.

Lemma idle_then_cancel c e ru f b g x : valid_config c -> reachable c e -> step c e (OpUpdate ru) = Done (f, Ok (OutUpdates [])) -> step c f (OpCancel b) = Done (g, Ok (OutLimit x)) ->
  exists f' g', step c e (OpCancel b) = Done (f', Ok (OutLimit x)) /\ step c f' (OpUpdate ru) = Done (g', Ok (OutUpdates [])) /\ machine_of g' = machine_of g.
Proof.
  intros V R U S. pose proof (reach_step _ _ _ _ _ R U) as Rf. destruct (exec_ok c e _ f _ V R U) as [K M]. destruct (exec_ok c f _ g _ V Rf S) as [K' M'].
  cbn [m_call] in M. unfold m_update in M. cbv zeta in M. destruct (m_due c (with_quote (machine_of e) ru)) eqn:D; [apply (f_equal snd) in M; discriminate M|].
  assert (Sil : reports (c_scale c) ru (m_orders (with_quote (machine_of e) ru)) = []) by (apply (f_equal snd) in M; cbn [snd] in M; congruence).
  pose proof (silent_untouched _ _ _ Sil) as N. apply (f_equal fst) in M. cbn [fst] in M. unfold m_meet_all in M. rewrite (meet_none c ru _ N) in M.
  cbn [m_call] in M'. unfold m_cancel in M'. rewrite <- M in M'. change (m_orders (with_quote (machine_of e) ru)) with (ex_active e) in M', N, Sil.
  destruct (find (named b) (ex_active e)) as [y|] eqn:F; [|apply (f_equal snd) in M'; discriminate]. pose proof (f_equal fst M') as G1. pose proof (f_equal snd M') as G2. cbn [fst snd] in G1, G2. injection G2 as ->.
  assert (Kc : cancel_crash c (machine_of e) b = None) by (cbn [m_crash] in K'; rewrite <- M in K'; exact K').
  assert (Mc : m_call c (machine_of e) (OpCancel b) = (m_drop c (machine_of e) b, Ok (OutLimit x))).
  { cbn [m_call]. unfold m_cancel. change (m_orders (machine_of e)) with (ex_active e). rewrite F. reflexivity. }
  destruct (ok_exec c e (OpCancel b) _ _ V R Kc Mc) as (f' & T & Mf). pose proof (reach_step _ _ _ _ _ R T) as Rf'.
  assert (N' : forall o, In o (m_orders (with_quote (machine_of f') ru)) -> touched ru o = None).
  { intros o O. apply N. rewrite Mf in O. exact (drop_sub c (machine_of e) b o x F O). }
  assert (D' : m_due c (with_quote (machine_of f') ru) = false) by (rewrite Mf; exact D).
  assert (Ku : m_crash c (machine_of f') (OpUpdate ru) = None).
  { cbn [m_crash] in *. apply first_none in K as [K1 K2]. apply first_none in K2 as [K2 _]. unfold update_crash in *. cbv zeta in *. rewrite D in K2. rewrite D', K1. cbn [first_of].
    apply first_none in K2 as [K2 K3]. rewrite K2. apply first_none in K3 as [K3 _]. cbn [first_of].
    rewrite (idle_check c ru (with_quote (machine_of e) ru) (with_quote (machine_of f') ru) N N'); [reflexivity| | | |exact K3].
    - intros E. change (ex_active e = []) in E. rewrite E in F. discriminate.
    - rewrite Mf. reflexivity.
    - unfold cancel_crash in Kc. apply first_none in Kc as [_ Kc]. change (m_orders (machine_of e)) with (ex_active e) in Kc. rewrite F in Kc. apply first_none in Kc as [Kc _]. unfold demand in Kc.
      destruct (Z.leb_spec (m_reserved (m_drop c (machine_of e) b)) (m_reserved (machine_of e))) as [E2|E2]; [|discriminate].
      rewrite Mf. change (m_free (machine_of e) <= m_free (m_drop c (machine_of e) b)). unfold m_free. cbn [m_drop with_orders m_book m_held] in *. lia. }
  assert (Mu : m_call c (machine_of f') (OpUpdate ru) = (with_quote (machine_of f') ru, Ok (OutUpdates []))).
  { cbn [m_call]. unfold m_update. cbv zeta. rewrite D'. unfold m_meet_all. rewrite (meet_none c ru _ N'), (untouched_reports _ _ _ N'). reflexivity. }
  destruct (ok_exec c f' _ _ _ V Rf' Ku Mu) as (g' & T' & Mg). exists f', g'. split; [exact T|]. split; [exact T'|]. rewrite Mg, <- G1, Mf. reflexivity.
Qed.

Lemma cancel_then_quote c e b f x q g r : valid_config c -> reachable c e -> step c e (OpCancel b) = Done (f, Ok (OutLimit x)) -> step c f (OpUpdate (RBba q)) = Done (g, Ok r) ->
  exists f' g', step c e (OpUpdate (RBba q)) = Done (f', Ok r) /\ step c f' (OpCancel b) = Done (g', Ok (OutLimit x)) /\ machine_of g' = machine_of g.
Proof.
  intros V R S U. pose proof (reach_step _ _ _ _ _ R S) as Rf. destruct (cancelled c e b f x V R S) as (Mf & F & _). destruct (exec_ok c e _ f _ V R S) as [Kc _]. destruct (exec_ok c f _ g _ V Rf U) as [K M].
  cbn [m_call] in M. unfold m_update in M. cbv zeta in M. rewrite Mf in M, K. change (m_due c (with_quote (m_drop c (machine_of e) b) (RBba q))) with (m_due c (with_quote (machine_of e) (RBba q))) in M.
  destruct (m_due c (with_quote (machine_of e) (RBba q))) eqn:D; [apply (f_equal snd) in M; discriminate M|].
  assert (N : forall l o, In o l -> touched (RBba q) o = None) by reflexivity.
  unfold m_meet_all in M. rewrite (meet_none c _ _ (N _)), (untouched_reports _ _ _ (N _)) in M. pose proof (f_equal fst M) as M1. pose proof (f_equal snd M) as M2. cbn [fst snd] in M1, M2. injection M2 as <-.
  assert (Ku : m_crash c (machine_of e) (OpUpdate (RBba q)) = None).
  { cbn [m_crash build_crash] in *. unfold update_crash in *. cbv zeta in *. change (m_due c (with_quote (m_drop c (machine_of e) b) (RBba q))) with (m_due c (with_quote (machine_of e) (RBba q))) in K. rewrite D in K |- *. exact K. }
  assert (Mu : m_call c (machine_of e) (OpUpdate (RBba q)) = (with_quote (machine_of e) (RBba q), Ok (OutUpdates []))).
  { cbn [m_call]. unfold m_update. cbv zeta. rewrite D. unfold m_meet_all. rewrite (meet_none c _ _ (N _)), (untouched_reports _ _ _ (N _)). reflexivity. }
  destruct (ok_exec c e _ _ _ V R Ku Mu) as (f' & T & Mf'). pose proof (reach_step _ _ _ _ _ R T) as Rf'.
  assert (Kc' : m_crash c (machine_of f') (OpCancel b) = None) by (rewrite Mf'; exact Kc).
  assert (Mc' : m_call c (machine_of f') (OpCancel b) = (m_drop c (machine_of f') b, Ok (OutLimit x))).
  { cbn [m_call]. unfold m_cancel. rewrite Mf'. change (m_orders (with_quote (machine_of e) (RBba q))) with (ex_active e). rewrite F. reflexivity. }
  destruct (ok_exec c f' _ _ _ V Rf' Kc' Mc') as (g' & T' & Mg'). exists f', g'. split; [exact T|]. split; [exact T'|]. rewrite Mg', <- M1, Mf'. reflexivity.
Qed.
