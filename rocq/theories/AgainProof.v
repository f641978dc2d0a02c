(** The same candle again. *)
From Coq Require Import Permutation.
From Verif Require Import ProofBase Types Accounting Filters Position OrderBook OrderMargin MarketUpdate Exchange Spec SpecConfig SpecMarket SpecFlow SpecMargin SpecPanic
  SpecMachine SpecCrash MachineProof Inv CrashProof OrderProof HealthProof ThinProof GearProof CashProof GhostProof CustomProof ReliefProof.

Lemma meet_frame c ru o m : m_bid (m_meet c ru m o) = m_bid m /\ m_ask (m_meet c ru m o) = m_ask m /\ m_time (m_meet c ru m o) = m_time m.
Proof. unfold m_meet. destruct (touched ru o); auto. Qed.
Lemma meets_frame c ru l : forall m, let m' := fold_left (m_meet c ru) l m in m_bid m' = m_bid m /\ m_ask m' = m_ask m /\ m_time m' = m_time m.
Proof.
  cbv zeta. induction l as [|o l IH]; intros m; [auto|]. cbn [fold_left]. destruct (IH (m_meet c ru m o)) as (A & B & C), (meet_frame c ru o m) as (A' & B' & C'). split; [|split]; congruence.
Qed.
Lemma requote m ru : m_bid m = match quote_of ru with Some q => fst q | None => m_bid m end -> m_ask m = match quote_of ru with Some q => snd q | None => m_ask m end -> m_time m = time_of ru -> with_quote m ru = m.
Proof. intros A B C. unfold with_quote. destruct m as [k h s l b a t n]; cbn in *. subst t. destruct (quote_of ru) as [[x y]|]; cbn in *; [subst; reflexivity | reflexivity]. Qed.
Lemma again_state c ru m : with_quote (m_meet_all c ru (with_quote m ru)) ru = m_meet_all c ru (with_quote m ru).
Proof.
  destruct (meets_frame c ru (m_orders (with_quote m ru)) (with_quote m ru)) as (A & B & C). fold (m_meet_all c ru (with_quote m ru)) in A, B, C.
  apply requote; rewrite ?A, ?B, ?C; unfold with_quote; cbn [m_bid m_ask m_time]; destruct (quote_of ru) as [[x y]|]; reflexivity.
Qed.
(** A candle leaves no order that it reaches. *)
Lemma candle_full k o q : touched (RCandle k) o = Some q -> q = lo_rem o.
Proof. cbn [touched]. destruct (beyond _ _); [|discriminate]. congruence. Qed.
Lemma meet_gone c k o m : NoDup (map lo_id (m_orders m)) -> In o (m_orders m) -> touched (RCandle k) o <> None ->
  exists l, Permutation (m_orders m) (o :: l) /\ Permutation (m_orders (m_meet c (RCandle k) m o)) l.
Proof.
  intros N I T. destruct (touched (RCandle k) o) as [q|] eqn:E; [|contradiction]. pose proof (candle_full k o q E) as ->.
  destruct (List.in_split _ _ I) as (a & b & S). exists (a ++ b). assert (P : Permutation (m_orders m) (o :: a ++ b)) by (rewrite S; symmetry; apply Permutation_middle). split; [exact P|].
  unfold m_meet. rewrite E. unfold reported_as. rewrite Z.eqb_refl. cbv zeta. cbn [with_orders m_orders m_fill]. apply taken_out; assumption.
Qed.
Lemma meets_gone c k : forall l m, NoDup (map lo_id (m_orders m)) -> NoDup (map lo_id l) -> (forall o, In o l -> In o (m_orders m)) ->
  forall x, In x (m_orders (fold_left (m_meet c (RCandle k)) l m)) -> In x (m_orders m) /\ (In x l -> touched (RCandle k) x = None).
Proof.
  induction l as [|o l IH]; intros m N NL S x X; [cbn [fold_left] in X; split; [exact X | intros []]|]. cbn [fold_left] in X. inversion NL as [|? ? NO NL']; subst.
  destruct (touched (RCandle k) o) as [q|] eqn:E.
  - destruct (meet_gone c k o m N (S o (or_introl eq_refl))) as (r & P & Q); [congruence|].
    assert (ND : NoDup (map lo_id (o :: r))) by (apply (Permutation_NoDup (Permutation_map lo_id P)), N). cbn [map] in ND. inversion ND as [|? ? Nr ND']; subst.
    destruct (IH (m_meet c (RCandle k) m o)) with (x := x) as [A B]; [apply (Permutation_NoDup (Permutation_map lo_id (Permutation_sym Q))), ND' | exact NL' | | exact X |].
    + intros y Y. apply (Permutation_in _ (Permutation_sym Q)). pose proof (Permutation_in _ P (S y (or_intror Y))) as [<-|Z]; [|exact Z]. exfalso. apply NO, in_map, Y.
    + apply (Permutation_in _ Q) in A. split; [apply (Permutation_in _ (Permutation_sym P)); right; exact A|]. intros [<-|Y]; [|exact (B Y)]. exfalso. apply Nr, in_map, A.
  - assert (M : m_meet c (RCandle k) m o = m) by (unfold m_meet; rewrite E; reflexivity). rewrite M in X.
    destruct (IH m N NL' (fun y Y => S y (or_intror Y)) x X) as [A B]. split; [exact A|]. intros [<-|Y]; [exact E | exact (B Y)].
Qed.
Lemma untouched_crash c k l : (forall o, In o l -> touched (RCandle k) o = None) -> forall m, meet_all_crash c (RCandle k) m l = None.
Proof.
  induction l as [|o l IH]; intros H m; [reflexivity|]. cbn [meet_all_crash]. unfold meet_crash, m_meet. rewrite (H o (or_introl eq_refl)). cbn [first_of]. rewrite IH; [reflexivity|]. intros x X. apply H. right; exact X.
Qed.
Lemma untouched_reports s ru l : (forall o, In o l -> touched ru o = None) -> reports s ru l = [].
Proof. unfold reports. induction l as [|o l IH]; intros H; [reflexivity|]. cbn [flat_map]. rewrite (H o (or_introl eq_refl)), IH; [reflexivity|]. intros x X. apply H. right; exact X. Qed.

Lemma again_candle c e k f r : valid_config c -> reachable c e -> step c e (OpUpdate (RCandle k)) = Done (f, Ok r) -> ~ due c (ex_pos f) (ms_bid (ex_ms f)) (ms_ask (ex_ms f)) ->
  exists g, step c f (OpUpdate (RCandle k)) = Done (g, Ok (OutUpdates [])) /\ machine_of g = machine_of f.
Proof.
  intros V R E ND. pose proof (reach_step _ _ _ _ _ R E) as R'. destruct (exec_ok c e _ f _ V R E) as [K M]. pose proof (reachable_inv _ _ (vc_max _ V) R) as I. pose proof (reachable_inv _ _ (vc_max _ V) R') as I'.
  cbn [m_call] in M. unfold m_update in M. cbv zeta in M. set (m := with_quote (machine_of e) (RCandle k)) in *.
  destruct (m_due c m) eqn:D; [apply (f_equal snd) in M; discriminate M|]. apply (f_equal fst) in M. cbn [fst] in M.
  assert (W : with_quote (machine_of f) (RCandle k) = machine_of f) by (rewrite <- M; apply again_state).
  assert (N : NoDup (map lo_id (m_orders m))) by exact (inv_nodup _ _ I).
  assert (U : forall o, In o (m_orders (machine_of f)) -> touched (RCandle k) o = None).
  { intros o O. rewrite <- M in O. destruct (meets_gone c k (m_orders m) m N N (fun y Y => Y) o O) as [A B]. exact (B A). }
  assert (D' : m_due c (machine_of f) = false).
  { destruct (m_due c (machine_of f)) eqn:Q; [|reflexivity]. exfalso. apply ND. apply (due_sees c f (inv_pos _ _ I')). rewrite <- (MachineProof.view_of c f I'). exact Q. }
  cbn [m_crash] in K. apply first_none in K as [K1 K2]. apply first_none in K2 as [K2 _]. unfold update_crash in K2. cbv zeta in K2. fold m in K2. rewrite D in K2.
  apply first_none in K2 as [K2 K3]. apply first_none in K3 as [K3 _]. unfold check_crash in K3. cbv zeta in K3. rewrite M in K3. apply first_none in K3 as [_ K3].
  apply ok_exec; [exact V | exact R' | |].
  - cbn [m_crash first_of]. rewrite K1. unfold update_crash. cbv zeta. rewrite W, D', K2. cbn [first_of]. unfold check_crash. cbv zeta. unfold m_meet_all. rewrite (meet_none c _ _ U), (untouched_crash c k _ U). cbn [first_of] in *.
    rewrite K3. reflexivity.
  - cbn [m_call]. unfold m_update. cbv zeta. rewrite W, D'. unfold m_meet_all. rewrite (meet_none c _ _ U), (untouched_reports _ _ _ U). reflexivity.
Qed.

(** An update of any kind that has filled nothing. *)
Lemma silent_untouched s ru l : reports s ru l = [] -> forall o, In o l -> touched ru o = None.
Proof.
  unfold reports. induction l as [|x l IH]; intros H o O; [destruct O|]. cbn [flat_map] in H. apply app_eq_nil in H as [A B]. destruct O as [<-|O]; [|exact (IH B o O)].
  destruct (touched ru x); [discriminate A | reflexivity].
Qed.
Lemma again_silent c e ru f : valid_config c -> reachable c e -> step c e (OpUpdate ru) = Done (f, Ok (OutUpdates [])) ->
  exists g, step c f (OpUpdate ru) = Done (g, Ok (OutUpdates [])) /\ machine_of g = machine_of f.
Proof.
  intros V R E. pose proof (reach_step _ _ _ _ _ R E) as R'. destruct (exec_ok c e _ f _ V R E) as [K M].
  cbn [m_call] in M. unfold m_update in M. cbv zeta in M. set (m := with_quote (machine_of e) ru) in *.
  destruct (m_due c m) eqn:D; [apply (f_equal snd) in M; discriminate M|].
  assert (S : reports (c_scale c) ru (m_orders m) = []) by (apply (f_equal snd) in M; cbn [snd] in M; congruence). apply (f_equal fst) in M. cbn [fst] in M.
  assert (W : with_quote (machine_of f) ru = machine_of f) by (rewrite <- M; apply again_state).
  unfold m_meet_all in M. rewrite (meet_none c ru _ (silent_untouched _ _ _ S)) in M.
  apply ok_exec; [exact V | exact R' | |].
  - cbn [m_crash] in *. unfold update_crash in *. cbv zeta in *. rewrite W, <- M. exact K.
  - cbn [m_call]. unfold m_update. cbv zeta. rewrite W, <- M, D. unfold m_meet_all. rewrite (meet_none c ru _ (silent_untouched _ _ _ S)), S. reflexivity.
Qed.
