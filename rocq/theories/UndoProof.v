(** Cancelling several orders one after the other. *)
From Coq Require Import Permutation.
From Verif Require Import ProofBase BookLemmas Inv Types Accounting Filters Position OrderBook OrderMargin MarketUpdate Exchange Spec SpecConfig SpecMarket SpecFlow SpecMargin SpecPanic
  SpecMachine SpecCrash MachineProof CrashProof MarginProof OrderProof HealthProof TotalProof CashProof BenchProof SpecBatch BatchProof.

Lemma kept_perm {A} (f : A -> bool) l l' : Permutation l l' -> Permutation (filter f l) (filter f l').
Proof.
  induction 1; cbn [filter]; [reflexivity| | |etransitivity; eassumption].
  - destruct (f x); [apply perm_skip|]; assumption.
  - destruct (f x), (f y); try reflexivity. apply perm_swap.
Qed.
Lemma kept_all {A} (l : list A) : filter (fun _ => true) l = l.
Proof. induction l as [|x l IH]; cbn [filter]; [reflexivity|]. rewrite IH. reflexivity. Qed.
Lemma kept_none {A} (l : list A) : filter (fun _ => false) l = [].
Proof. induction l as [|x l IH]; cbn [filter]; [reflexivity|exact IH]. Qed.
Lemma app_nodup_r {A} (a b : list A) : NoDup (a ++ b) -> NoDup b.
Proof. induction a as [|x a IH]; [auto|]. cbn [app]. intros H. inversion H; auto. Qed.
Lemma pairs_kept sd f b x : In x (map fst (pairs sd (filter f b))) -> In x (map fst (pairs sd b)).
Proof.
  intros H. apply in_map_iff in H as (y & Y1 & Y2). apply in_map_iff. exists y. split; [exact Y1|].
  unfold pairs in *. apply in_flat_map in Y2 as (z & Z1 & Z2). apply filter_In in Z1 as [Z1 _]. apply in_flat_map. exists z. auto.
Qed.
Lemma no_ties_kept f b : no_ties b -> no_ties (filter f b).
Proof.
  intros H sd. specialize (H sd). induction b as [|o b IH]; [exact H|].
  assert (T : NoDup (map fst (pairs sd b))) by (change (o :: b) with ([o] ++ b) in H; rewrite pairs_app, map_app in H; exact (app_nodup_r _ _ H)).
  cbn [filter]. destruct (f o); [|exact (IH T)]. unfold pairs in H |- *. cbn [flat_map] in *. destruct (side_eq_dec (lo_side o) sd); [|exact (IH T)].
  cbn [app map fst] in *. inversion H as [|? ? X1 X2]. constructor; [|exact (IH T)]. intros Y. exact (X1 (pairs_kept sd f b _ Y)).
Qed.
Definition clear_at (c : config) (n : Z) (b : list limit_order) : Prop := n = 0 \/ no_ties b \/ exists g, exact_book (c_kind c) (c_scale c) g n b.
Lemma clear_perm c n b b' : Permutation b b' -> clear_at c n b -> clear_at c n b'.
Proof.
  intros P [H|[H|[g [D H]]]]; [left; exact H | right; left | right; right; exists g; split; [exact D|]].
  - intros sd. eapply Permutation_NoDup; [apply Permutation_map, pairs_perm; exact P | apply H].
  - intros o O. apply H. rewrite P. exact O.
Qed.
Lemma clear_tail c n o b : clear_at c n (o :: b) -> clear_at c n b.
Proof.
  intros [H|[H|[g [D H]]]]; [left; exact H | right; left | right; right; exists g; split; [exact D|]].
  - intros sd. specialize (H sd). change (o :: b) with ([o] ++ b) in H. rewrite pairs_app, map_app in H. exact (app_nodup_r _ _ H).
  - intros x X. apply H. right. exact X.
Qed.
Definition pos_for (n : Z) : position := match n with Z0 => Neutral | Zpos _ => Long {| pi_qty := n; pi_entry := 0; pi_fees := 0 |} | Zneg _ => Short {| pi_qty := - n; pi_entry := 0; pi_fees := 0 |} end.
Lemma pos_for_qty n : position_quantity (pos_for n) = n.
Proof. destruct n; reflexivity. Qed.
Lemma clear_pos c n b : clear_at c n b -> exists g, pos_for n = Neutral \/ no_ties b \/ exact_book (c_kind c) (c_scale c) g (position_quantity (pos_for n)) b.
Proof. rewrite pos_for_qty. intros [->|[H|[g H]]]; [exists 0|exists 0|exists g]; auto. Qed.
Lemma need_drop c n b b' o : valid_config c -> good_book b -> Permutation b (o :: b') -> clear_at c n b -> need c b' n <= need c b n.
Proof.
  intros V G P C. destruct (clear_pos c n b C) as [g X]. rewrite <- (pos_for_qty n), <- !req_need. eapply req_remove; try eassumption; [apply (vc_scale _ V)|apply (vc_imr _ V)].
Qed.
Lemma need_perm c n b b' : valid_config c -> good_book b -> Permutation b b' -> clear_at c n b -> need c b n = need c b' n.
Proof.
  intros V G P C. destruct (clear_pos c n b C) as [g X]. rewrite <- (pos_for_qty n), <- !req_need. eapply req_perm; try eassumption. apply (vc_scale _ V).
Qed.

Lemma cancels c : valid_config c -> forall l m, m_level c m -> good_book (m_orders m) -> NoDup (map lo_id (m_orders m)) -> clear_at c (m_pos m) (m_orders m) ->
  NoDup l -> (forall i, In i l -> In i (map lo_id (m_orders m))) ->
  exists m' outs, m_play c m (map dropped l) = Done (m', outs) /\ (forall r, In r outs -> exists o, r = Ok o) /\
    Permutation (m_orders m') (without l (m_orders m)) /\ m' = with_orders m (m_orders m') (need c (m_orders m') (m_pos m)).
Proof.
  intros V. induction l as [|i l IH]; intros m L G D C N H.
  - exists m, []. split; [reflexivity|]. split; [intros r []|]. split.
    + unfold without. cbn [existsb negb]. rewrite kept_all. reflexivity.
    + rewrite <- L. destruct m; reflexivity.
  - inversion N as [|? ? Ni N']; subst.
    assert (F : exists o, find (named (ByOrderId i)) (m_orders m) = Some o /\ lo_id o = i).
    { destruct (find (named (ByOrderId i)) (m_orders m)) as [o|] eqn:E.
      - exists o. split; [reflexivity|]. apply find_some in E as [_ E]. cbn [named] in E. lia.
      - specialize (H i (or_introl eq_refl)). apply in_map_iff in H as (o & O & K). pose proof (find_none _ _ E o K) as E'. cbn [named] in E'. lia. }
    destruct F as (o & F & O). pose proof (take_perm _ _ _ F) as P. set (b := take_out (named (ByOrderId i)) (m_orders m)) in *.
    assert (D1 : NoDup (map lo_id (o :: b))) by (eapply Permutation_NoDup; [apply Permutation_map; exact P | exact D]). cbn [map] in D1. inversion D1 as [|? ? Nb D2]; subst.
    assert (G1 : good_book b) by (intros x X; apply G; rewrite P; right; exact X).
    pose proof (clear_tail _ _ _ _ (clear_perm _ _ _ _ P C)) as C1. pose proof (need_drop c _ _ _ _ V G P C) as LE.
    set (m1 := with_orders m b (need c b (m_pos m))).
    assert (E : m_exec c m (dropped (lo_id o)) = Done (m1, Ok (OutLimit o))).
    { unfold m_exec, dropped. cbn [m_crash m_call]. unfold cancel_crash, m_cancel. rewrite F, L, Z.eqb_refl. cbn [demand first_of].
      unfold m_drop. fold b. cbn [with_orders m_reserved]. destruct (Z.leb_spec (need c b (m_pos m)) (need c (m_orders m) (m_pos m))); [reflexivity|lia]. }
    destruct (IH m1 eq_refl G1 D2 C1 N') as (m' & outs & R & A & Q & M).
    { intros j J. specialize (H j (or_intror J)). rewrite P in H. cbn [map] in H. destruct H as [H|H]; [|exact H]. subst j. contradiction. }
    exists m', (Ok (OutLimit o) :: outs). cbn [map m_play]. rewrite E, R. split; [reflexivity|]. split; [intros r [<-|X]; [eauto|auto]|]. split; [|exact M].
    rewrite Q. cbn [m1 with_orders m_orders]. unfold without. symmetry. rewrite (kept_perm _ _ _ P). cbn [filter existsb]. rewrite Z.eqb_refl. cbn [orb negb].
    rewrite (filter_ext_in _ (fun x => negb (existsb (Z.eqb (lo_id x)) l))); [reflexivity|]. intros x X. cbn [existsb].
    destruct (Z.eqb_spec (lo_id x) (lo_id o)) as [K|K]; [|reflexivity]. exfalso. apply Nb. rewrite <- K. apply in_map. exact X.
Qed.

Lemma clear_of c e b : clear_book c e b -> clear_at c (position_quantity (ex_pos e)) b.
Proof. intros [H|H]; [left; rewrite H; reflexivity | right; exact H]. Qed.

Lemma cancel_many c e l : valid_config c -> reachable c e -> in_sync c e -> clear_book c e (ex_active e) -> NoDup l -> (forall i, In i l -> In i (map lo_id (ex_active e))) ->
  exists e' outs, run c e (map dropped l) = Done (e', outs) /\ (forall r, In r outs -> exists o, r = Ok o) /\ Permutation (ex_active e') (without l (ex_active e)) /\
    in_sync c e' /\ order_margin_of e' = need c (without l (ex_active e)) (position_quantity (ex_pos e)) /\
    wallet_of e' + order_margin_of e' = wallet_of e + order_margin_of e /\ order_margin_of e' <= order_margin_of e /\
    statement_of e' = statement_of e /\ position_margin_of e' = position_margin_of e /\ ex_next_id e' = ex_next_id e.
Proof.
  intros V R S C N H. destruct (batch_level c e V R S) as [L G]. pose proof (reachable_inv c e (vc_max _ V) R) as I.
  destruct (cancels c V l (machine_of e) L G (inv_nodup _ _ I) (clear_of _ _ _ C) N H) as (m' & outs & K & A & P & M).
  rewrite <- (exec_run c _ e V R) in K. apply seen_of in K as (e' & K & Em). exists e', outs. split; [exact K|]. split; [exact A|].
  subst m'. cbn [machine_of m_orders] in P, M. split; [exact P|].
  assert (R' : reachable c e') by (destruct R as (ops & os & e0 & I0 & K0); exists (ops ++ map dropped l), (os ++ outs), e0; split; [exact I0|]; apply run_app; exists e, os, outs; auto).
  pose proof (reachable_inv c e' (vc_max _ V) R') as I'.
  pose proof (f_equal m_reserved M) as M2. pose proof (f_equal m_book M) as M3. pose proof (f_equal m_held M) as M4. pose proof (f_equal m_next M) as M5. pose proof (f_equal m_pos M) as M6.
  cbn [machine_of with_orders m_orders m_reserved m_book m_held m_next] in M2, M3, M4, M5.
  change (position_quantity (ex_pos e') = position_quantity (ex_pos e)) in M6. change (m_pos (machine_of e)) with (position_quantity (ex_pos e)) in M2.
  assert (C' : clear_at c (position_quantity (ex_pos e)) (without l (ex_active e)) /\ good_book (without l (ex_active e))).
  { split; [|intros o O; apply filter_In in O as [O _]; exact (G o O)]. pose proof (clear_of _ _ _ C) as X. unfold without. revert X. clear.
    set (n := position_quantity (ex_pos e)). set (f := fun o : limit_order => _). intros [X|[X|[g [Dv X]]]]; [left; exact X | right; left | right; right; exists g; split; [exact Dv|]].
    - apply no_ties_kept. exact X.
    - intros o O. apply filter_In in O as [O _]. auto. }
  destruct C' as [C' G']. rewrite (need_perm c _ _ _ V (good_perm _ _ (Permutation_sym P) G') P (clear_perm _ _ _ _ (Permutation_sym P) C')) in M2.
  split. { unfold in_sync. rewrite order_margin_internal_eq by (first [exact (good_of_inv _ _ I') | exact (inv_pos _ _ I') | intros _; apply (vc_imr _ V)]).
    rewrite req_need, M6, M2. f_equal. apply need_perm; [exact V | exact (good_of_inv _ _ I') | exact P | exact (clear_perm _ _ _ _ (Permutation_sym P) C')]. }
  split; [exact M2|]. split. { rewrite <- !machine_wallet. unfold m_free. cbn [machine_of m_book m_held m_reserved]. rewrite M3, M4. lia. }
  split; [|auto]. rewrite M2. cbv [m_level] in L. cbn [machine_of m_reserved m_orders] in L. change (m_pos (machine_of e)) with (position_quantity (ex_pos e)) in L. rewrite L.
  (* the orders that are left, and then the others *)
  assert (PP : Permutation (ex_active e) (without l (ex_active e) ++ filter (fun o => existsb (Z.eqb (lo_id o)) l) (ex_active e))).
  { unfold without. generalize (ex_active e). intros b. induction b as [|o b IH]; [reflexivity|]. cbn [filter]. destruct (existsb (Z.eqb (lo_id o)) l); cbn [negb].
    - rewrite IH at 1. apply Permutation_middle.
    - cbn [app]. apply perm_skip. exact IH. }
  change (m_orders (machine_of e)) with (ex_active e) in G. rewrite (need_perm c _ _ _ V G PP (clear_of _ _ _ C)). apply need_app; [apply (vc_scale _ V)|apply (vc_imr _ V)|]. exact (good_perm _ _ PP G).
Qed.

Lemma batch_undone c e l e1 ids : valid_config c -> reachable c e -> in_sync c e -> clear_book c e (book_with e l) -> accepts c e l e1 ->
  Permutation ids (map lo_id (entered (ms_ts (ex_ms e)) (ex_next_id e) l)) ->
  exists e2 outs, run c e1 (map dropped ids) = Done (e2, outs) /\ (forall r, In r outs -> exists o, r = Ok o) /\ Permutation (ex_active e2) (ex_active e) /\
    wallet_of e2 = wallet_of e /\ order_margin_of e2 = order_margin_of e /\ statement_of e2 = statement_of e /\ position_margin_of e2 = position_margin_of e.
Proof.
  intros V R S C H P. destruct (batch_result c e l e1 V R S H) as (_ & A & S1 & B & D & E1 & F & Nx).
  assert (R1 : reachable c e1).
  { destruct H as (o & H0 & _). destruct R as (ops & os & e0 & I & K). exists (ops ++ map sent l), (os ++ o), e0. split; [exact I|]. apply run_app. exists e, os, o. auto. }
  pose proof (reachable_inv c e (vc_max _ V) R) as I. pose proof (reachable_inv c e1 (vc_max _ V) R1) as I1.
  assert (Q : position_quantity (ex_pos e1) = position_quantity (ex_pos e)) by exact (f_equal l_qty E1).
  assert (C1 : clear_book c e1 (ex_active e1)).
  { rewrite A. destruct C as [C|[C|[g C]]]; [left|right; left; exact C|right; right; exists g; rewrite Q; exact C].
    rewrite C in Q. pose proof (inv_pos _ _ I1) as PO. destruct (ex_pos e1) as [|p|p]; [reflexivity| |]; cbn in PO, Q; lia. }
  assert (ND : NoDup (map lo_id (ex_active e) ++ map lo_id (entered (ms_ts (ex_ms e)) (ex_next_id e) l))).
  { rewrite <- map_app. change (NoDup (map lo_id (book_with e l))). rewrite <- A. exact (inv_nodup _ _ I1). }
  assert (N2 : NoDup ids).
  { eapply Permutation_NoDup; [symmetry; exact P|]. exact (app_nodup_r _ _ ND). }
  destruct (cancel_many c e1 ids V R1 S1 C1 N2) as (e2 & outs & K & O & PB & S2 & OM & W & _ & T & PM & _).
  { intros i X. rewrite A. unfold book_with. rewrite map_app. apply in_or_app. right. rewrite <- P. exact X. }
  assert (X : without ids (ex_active e1) = ex_active e).
  { rewrite A. unfold without, book_with. rewrite filter_app.
    rewrite (filter_ext_in _ (fun _ => true)) with (l := ex_active e).
    2:{ intros o X. apply negb_true_iff. apply not_true_is_false. rewrite existsb_exists. intros (i & J & K2). apply Z.eqb_eq in K2. subst i. rewrite P in J.
        apply in_map with (f := lo_id) in X. revert ND X J. generalize (map lo_id (ex_active e)), (map lo_id (entered (ms_ts (ex_ms e)) (ex_next_id e) l)), (lo_id o). clear.
        intros q r x. induction q as [|y q IH]; [intros _ []|]. cbn [app]. intros Z [->|X] J; inversion Z; subst; [|auto]. apply H1. apply in_or_app. auto. }
    rewrite (filter_ext_in _ (fun _ => false)) with (l := entered _ _ _).
    2:{ intros o X. apply negb_false_iff. apply existsb_exists. exists (lo_id o). split; [|apply Z.eqb_refl]. rewrite P. apply in_map. exact X. }
    rewrite kept_all, kept_none. apply app_nil_r. }
  rewrite X in *. destruct (batch_level c e V R S) as [L _]. cbv [m_level] in L. cbn [machine_of m_reserved m_orders] in L. change (m_pos (machine_of e)) with (position_quantity (ex_pos e)) in L.
  assert (OM' : order_margin_of e2 = order_margin_of e) by (rewrite OM, Q, L; reflexivity).
  exists e2, outs. split; [exact K|]. split; [exact O|]. split; [exact PB|]. split; [lia|]. split; [exact OM'|]. split; congruence.
Qed.
