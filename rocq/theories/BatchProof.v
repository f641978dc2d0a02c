(** Proofs about several limit orders one after the other. *)
From Coq Require Import Permutation.
From Verif Require Import ProofBase BookLemmas Inv Types Accounting Filters Position OrderBook OrderMargin MarketUpdate Exchange Spec SpecConfig SpecMarket SpecFlow SpecMargin SpecPanic
  SpecMachine SpecCrash MachineProof CrashProof MarginProof OrderProof HealthProof TotalProof BenchProof SpecBatch.

(** ** On the reference machine *)
Definition m_suits (c : config) (m : machine) (t : ticket) : Prop :=
  0 < t_price t /\ 0 < t_qty t /\ quantity_fault (ct_qf (c_spec c)) (t_qty t) = None /\
  price_fault (c_scale c) (ct_pf (c_spec c)) (Z.quot (m_bid m + m_ask m) 2) (t_price t) = None /\
  match t_side t with Buy => t_price t < m_ask m | Sell => m_bid m < t_price t end.
Definition m_level (c : config) (m : machine) : Prop := m_reserved m = need c (m_orders m) (m_pos m).
Definition m_full (m : machine) (l : list ticket) : list limit_order := m_orders m ++ entered (m_time m) (m_next m) l.
Definition m_after (c : config) (m : machine) (l : list ticket) : machine :=
  {| m_book := m_book m; m_held := m_held m; m_reserved := match l with [] => m_reserved m | _ => need c (m_full m l) (m_pos m) end; m_orders := m_full m l;
     m_bid := m_bid m; m_ask := m_ask m; m_time := m_time m; m_next := m_next m + Z.of_nat (length l) |}.

Lemma entered_length ts l : forall i, length (entered ts i l) = length l.
Proof. induction l as [|t l IH]; intros i; cbn [entered length]; [reflexivity|]. rewrite IH. reflexivity. Qed.
Lemma entered_good ts l : (forall t, In t l -> 0 < t_price t /\ 0 < t_qty t) -> forall i, good_book (entered ts i l).
Proof.
  induction l as [|t l IH]; intros H i o; cbn [entered In]; [intros []|]. intros [<-|K].
  - cbn. destruct (H t (or_introl eq_refl)). auto.
  - apply (IH (fun x X => H x (or_intror X)) (i + 1)). exact K.
Qed.
Lemma good_app a b : good_book a -> good_book b -> good_book (a ++ b).
Proof. intros A B o H. apply in_app_or in H as [H|H]; auto. Qed.
Lemma need_snoc c b o n : 0 < c_scale c -> 0 <= ct_imr (c_spec c) -> good_book (b ++ [o]) -> need c b n <= need c (b ++ [o]) n.
Proof.
  intros S I G. destruct (Z.lt_trichotomy n 0) as [H|[H|H]].
  - pose proof (req_snoc c b o (Short {| pi_qty := - n; pi_entry := 0; pi_fees := 0 |}) S I G) as K. rewrite !req_need in K. cbn in K. rewrite Z.opp_involutive in K. exact K.
  - subst n. pose proof (req_snoc c b o Neutral S I G) as K. rewrite !req_need in K. exact K.
  - pose proof (req_snoc c b o (Long {| pi_qty := n; pi_entry := 0; pi_fees := 0 |}) S I G) as K. rewrite !req_need in K. exact K.
Qed.
Lemma need_app c n : 0 < c_scale c -> 0 <= ct_imr (c_spec c) -> forall r b, good_book (b ++ r) -> need c b n <= need c (b ++ r) n.
Proof.
  intros S I. induction r as [|o r IH]; intros b G; [rewrite app_nil_r; lia|].
  replace (b ++ o :: r) with ((b ++ [o]) ++ r) in * by (rewrite <- app_assoc; reflexivity).
  etransitivity; [|apply IH; exact G]. apply need_snoc; try assumption. intros x X. apply G. apply in_or_app. left. exact X.
Qed.

Definition sample_order (t : ticket) : limit_order :=
  {| lo_uid := t_uid t; lo_side := t_side t; lo_price := t_price t; lo_rem := t_qty t; lo_id := 0; lo_ts := 0; lo_filled := Unfilled |}.
Definition answers (l : list limit_order) : list (result error out) := map (fun o => Ok (OutLimit o)) l.

Section Machine.
Variables (c : config) (V : valid_config c).

Lemma one_accepted m t m' x : m_level c m -> good_book (m_orders m) -> m_exec c m (sent t) = Done (m', Ok x) ->
  m_suits c m t /\ Z.of_nat (length (m_orders m)) < c_max c /\ need c (m_full m [t]) (m_pos m) <= m_free m + m_reserved m /\ m' = m_after c m [t].
Proof.
  intros L G H. unfold m_exec, sent in H. destruct (m_crash _ _ _) as [w|]; [discriminate|].
  assert (H1 : m_call c m (OpLimit (t_side t) (t_price t) (t_qty t) (t_uid t)) = (m', Ok x)) by congruence. clear H. cbn [m_call] in H1. unfold m_limit, m_submit in H1.
  destruct (Z.leb_spec (t_price t) 0); [discriminate|]. destruct (Z.leb_spec (t_qty t) 0); [discriminate|].
  destruct (quantity_fault _ _) eqn:Q; [discriminate|]. destruct (price_fault _ _ _ _) eqn:P; [discriminate|]. cbv zeta in H1.
  set (o := {| lo_uid := _ |}) in *. rewrite <- L in H1.
  destruct (Z.ltb_spec (m_free m + m_reserved m) (need c (m_orders m ++ [o]) (m_pos m))) as [|F]; [discriminate|].
  destruct (match t_side t with Buy => _ | Sell => _ end) eqn:X; [discriminate|].
  destruct (Z.leb_spec (c_max c) (Z.of_nat (length (m_orders m)))); [discriminate|].
  split. { unfold m_suits. repeat split; try assumption. destruct (t_side t); lia. }
  split; [assumption|]. split; [exact F|]. injection H1 as <- _.
  assert (M : m_reserved m <= need c (m_orders m ++ [o]) (m_pos m)).
  { rewrite L. apply need_snoc; [apply (vc_scale _ V)|apply (vc_imr _ V)|]. apply good_app; [exact G|]. intros y [<-|[]]. cbn. lia. }
  unfold with_id, with_orders, m_after, m_full. cbn [entered length m_book m_held m_reserved m_orders m_bid m_ask m_time m_next]. fold o.
  replace (m_reserved m + Z.abs (need c (m_orders m ++ [o]) (m_pos m) - m_reserved m)) with (need c (m_orders m ++ [o]) (m_pos m)) by lia. reflexivity.
Qed.

Lemma one_works m t : m_level c m -> good_book (m_orders m) ->
  m_suits c m t -> Z.of_nat (length (m_orders m)) < c_max c -> need c (m_full m [t]) (m_pos m) <= m_free m + m_reserved m ->
  m_exec c m (sent t) = Done (m_after c m [t], Ok (OutLimit (hd (sample_order t) (entered (m_time m) (m_next m) [t])))).
Proof.
  intros L G (P & Q & FQ & FP & X) R F. unfold m_exec, sent. cbn [m_crash m_call]. unfold limit_crash, submit_crash, m_limit, m_submit.
  destruct (Z.leb_spec (t_price t) 0); [lia|]. destruct (Z.leb_spec (t_qty t) 0); [lia|]. cbn [orb]. rewrite FQ, FP. cbv zeta.
  unfold m_full in F. cbn [entered] in F. set (o := {| lo_uid := _ |}) in *. rewrite <- L.
  destruct (Z.ltb_spec (m_free m + m_reserved m) (need c (m_orders m ++ [o]) (m_pos m))); [lia|].
  assert (E : match t_side t with Buy => m_ask m <=? t_price t | Sell => t_price t <=? m_bid m end = false) by (destruct (t_side t); lia). rewrite E.
  destruct (Z.leb_spec (c_max c) (Z.of_nat (length (m_orders m)))); [lia|].
  assert (M : m_reserved m <= need c (m_orders m ++ [o]) (m_pos m)).
  { rewrite L. apply need_snoc; [apply (vc_scale _ V)|apply (vc_imr _ V)|]. apply good_app; [exact G|]. intros y [<-|[]]. cbn. lia. }
  assert (A : with_id (with_orders m (m_orders m ++ [o]) (m_reserved m + Z.abs (need c (m_orders m ++ [o]) (m_pos m) - m_reserved m))) = m_after c m [t]).
  { unfold with_id, with_orders, m_after, m_full. cbn [entered length m_book m_held m_reserved m_orders m_bid m_ask m_time m_next]. fold o.
    replace (m_reserved m + Z.abs (need c (m_orders m ++ [o]) (m_pos m) - m_reserved m)) with (need c (m_orders m ++ [o]) (m_pos m)) by lia. reflexivity. }
  rewrite A. unfold demand. assert (Fr : 0 <=? m_free (m_after c m [t]) = true).
  { unfold m_free in *. cbn [m_after m_book m_held m_reserved]. unfold m_full. cbn [entered]. fold o. lia. }
  rewrite Fr, orb_true_r. unfold m_level in L.
  destruct (Z.ltb_spec (m_free m + need c (m_orders m) (m_pos m)) (need c (m_orders m ++ [o]) (m_pos m))); [lia|]. reflexivity.
Qed.

Lemma after_one m t l : m_after c (m_after c m [t]) l = m_after c m (t :: l).
Proof.
  unfold m_after, m_full. cbn [m_orders m_time m_next m_book m_held m_bid m_ask entered length m_pos].
  assert (E : (m_orders m ++ entered (m_time m) (m_next m) [t]) ++ entered (m_time m) (m_next m + Z.of_nat 1) l
     = m_orders m ++ entered (m_time m) (m_next m) (t :: l)) by (rewrite <- app_assoc; reflexivity).
  destruct l as [|u l].
  - cbn [entered length]. rewrite app_nil_r. f_equal. lia.
  - cbn [entered] in *. rewrite E. unfold m_pos. cbn [m_book]. f_equal. cbn [length]. lia.
Qed.
Lemma after_level m t l : m_level c (m_after c m (t :: l)).
Proof. reflexivity. Qed.
Lemma after_suits m t u : m_suits c (m_after c m [t]) u <-> m_suits c m u.
Proof. reflexivity. Qed.
Lemma after_good m t : m_suits c m t -> good_book (m_orders m) -> good_book (m_orders (m_after c m [t])).
Proof. intros (P & Q & _) G. apply good_app; [exact G|]. intros o [<-|[]]. cbn. auto. Qed.
Lemma after_money m t : m_free (m_after c m [t]) + m_reserved (m_after c m [t]) = m_free m + m_reserved m.
Proof. unfold m_free. cbn [m_after m_book m_held m_reserved]. lia. Qed.

Definition fine (m : machine) (l : list ticket) : Prop :=
  Forall (m_suits c m) l /\ (l = [] \/ (Z.of_nat (length (m_orders m) + length l) <= c_max c /\ need c (m_full m l) (m_pos m) <= m_free m + m_reserved m)).

Lemma batch_down l : forall m m' outs, m_level c m -> good_book (m_orders m) -> m_play c m (map sent l) = Done (m', outs) ->
  (forall r, In r outs -> exists o, r = Ok o) -> fine m l /\ m' = m_after c m l.
Proof.
  induction l as [|t l IH]; intros m m' outs L G H A.
  - cbn in H. split; [split; [constructor|auto]|]. assert (m' = m) by congruence. subst. unfold m_after, m_full. cbn [entered length]. rewrite app_nil_r, Z.add_0_r. destruct m; reflexivity.
  - cbn [map m_play] in H. destruct (m_exec c m (sent t)) as [[m1 x]|w] eqn:E; [|discriminate]. destruct (m_play c m1 (map sent l)) as [[m2 xs]|w] eqn:E2; [|discriminate].
    assert (m2 = m') by congruence. subst m2. assert (outs = x :: xs) by congruence. subst outs. destruct (A x (or_introl eq_refl)) as [y ->].
    destruct (one_accepted _ _ _ _ L G E) as (S & R & F & ->). pose proof (after_good _ _ S G) as G1.
    destruct (IH _ _ _ (after_level m t []) G1 E2 (fun r X => A r (or_intror X))) as [[SS RR] ->]. rewrite after_one. split; [|reflexivity].
    split. { constructor; [exact S|]. eapply Forall_impl; [|exact SS]. intros u. apply after_suits. }
    right. destruct RR as [->|[R1 R2]].
    + cbn [length]. split; [lia|exact F].
    + rewrite after_money in R2. change (m_orders (m_after c m [t])) with (m_orders m ++ entered (m_time m) (m_next m) [t]) in R1. rewrite app_length in R1. cbn [entered length] in *.
      split; [lia|]. change (m_full (m_after c m [t]) l) with (m_orders (m_after c (m_after c m [t]) l)) in R2. rewrite after_one in R2. exact R2.
Qed.

Lemma batch_up l : forall m, m_level c m -> good_book (m_orders m) -> fine m l ->
  m_play c m (map sent l) = Done (m_after c m l, answers (entered (m_time m) (m_next m) l)).
Proof.
  induction l as [|t l IH]; intros m L G [SS RR].
  - cbn [map m_play]. unfold m_after, m_full. cbn [entered length]. rewrite app_nil_r, Z.add_0_r. destruct m; reflexivity.
  - inversion SS as [|? ? S SS']; subst. destruct RR as [|[R F]]; [discriminate|]. pose proof (after_good _ _ S G) as G1.
    assert (GG : good_book (m_full m (t :: l))).
    { apply good_app; [exact G|]. apply entered_good. intros u U. rewrite Forall_forall in SS. destruct (SS u U) as (? & ? & _). auto. }
    assert (E0 : m_full m (t :: l) = m_full m [t] ++ entered (m_time m) (m_next m + 1) l) by (unfold m_full; rewrite <- app_assoc; reflexivity).
    assert (N : need c (m_full m [t]) (m_pos m) <= need c (m_full m (t :: l)) (m_pos m)).
    { rewrite E0 in *. apply need_app; [apply (vc_scale _ V)|apply (vc_imr _ V)|exact GG]. }
    cbn [length] in R. assert (E := one_works m t L G S). specialize (E ltac:(lia) ltac:(lia)).
    assert (E2 := IH (m_after c m [t]) (after_level m t []) G1).
    assert (X : fine (m_after c m [t]) l).
    { split. { eapply Forall_impl; [|exact SS']. intros u. apply after_suits. } right.
      rewrite after_money. change (m_orders (m_after c m [t])) with (m_orders m ++ entered (m_time m) (m_next m) [t]). rewrite app_length. cbn [entered length].
      split; [lia|]. change (m_full (m_after c m [t]) l) with (m_orders (m_after c (m_after c m [t]) l)). rewrite after_one. exact F. }
    specialize (E2 X). cbn [map m_play]. rewrite E, E2, after_one. reflexivity.
Qed.
End Machine.

(** ** On the exchange *)
Lemma answers_ok l r : In r (answers l) -> exists o, r = Ok o.
Proof. unfold answers. rewrite in_map_iff. intros (o & <- & _). eauto. Qed.
Lemma batch_level c e : valid_config c -> reachable c e -> in_sync c e -> m_level c (machine_of e) /\ good_book (m_orders (machine_of e)).
Proof.
  intros V R S. pose proof (reachable_inv c e (vc_max _ V) R) as I. split; [|exact (good_of_inv _ _ I)].
  unfold m_level. cbn [machine_of m_reserved m_orders]. apply (need_margin c _ _ _ V (good_of_inv _ _ I) (inv_pos _ _ I) S).
Qed.
Lemma accepts_play c e l e' : valid_config c -> reachable c e -> accepts c e l e' ->
  exists outs, m_play c (machine_of e) (map sent l) = Done (machine_of e', outs) /\ forall r, In r outs -> exists o, r = Ok o.
Proof. intros V R (outs & H & A). exists outs. split; [|exact A]. rewrite <- (exec_run c _ e V R), H. reflexivity. Qed.
Lemma play_accepts c e l m' outs : valid_config c -> reachable c e -> m_play c (machine_of e) (map sent l) = Done (m', outs) -> (forall r, In r outs -> exists o, r = Ok o) ->
  exists e', accepts c e l e' /\ machine_of e' = m'.
Proof. intros V R H A. rewrite <- (exec_run c _ e V R) in H. apply seen_of in H as (e' & H & M). exists e'. split; [exists outs; auto | exact M]. Qed.

Definition batch_fine (c : config) (e : exchange) (l : list ticket) : Prop :=
  (forall t, In t l -> suits c e t) /\
  (l <> [] -> Z.of_nat (length (ex_active e) + length l) <= c_max c /\
              need c (book_with e l) (position_quantity (ex_pos e)) <= wallet_of e + order_margin_of e).
Lemma fine_iff c e l : fine c (machine_of e) l <-> batch_fine c e l.
Proof.
  unfold fine, batch_fine. rewrite Forall_forall. rewrite machine_wallet.
  change (m_full (machine_of e) l) with (book_with e l). change (m_pos (machine_of e)) with (position_quantity (ex_pos e)). cbn [machine_of m_orders m_reserved].
  split; intros [A B]; (split; [exact A|]).
  - intros N. destruct B as [B|B]; [contradiction|exact B].
  - destruct l; [auto|]. right. apply B. discriminate.
Qed.

Lemma batch_exactly c e l : valid_config c -> reachable c e -> in_sync c e -> ((exists e', accepts c e l e') <-> batch_fine c e l).
Proof.
  intros V R S. destruct (batch_level c e V R S) as [L G]. rewrite <- fine_iff. split.
  - intros [e' H]. apply (accepts_play _ _ _ _ V R) in H as (outs & H & A). exact (proj1 (batch_down c V l _ _ _ L G H A)).
  - intros F. pose proof (batch_up c V l _ L G F) as H. destruct (play_accepts _ _ _ _ _ V R H (answers_ok _)) as (e' & K & _). eauto.
Qed.

Lemma batch_result c e l e' : valid_config c -> reachable c e -> in_sync c e -> accepts c e l e' ->
  run c e (map sent l) = Done (e', map (fun o => Ok (OutLimit o)) (entered (ms_ts (ex_ms e)) (ex_next_id e) l)) /\ ex_active e' = book_with e l /\ in_sync c e' /\ order_margin_of e' = need c (book_with e l) (position_quantity (ex_pos e)) /\
  wallet_of e' + order_margin_of e' = wallet_of e + order_margin_of e /\ statement_of e' = statement_of e /\ position_margin_of e' = position_margin_of e /\
  ex_next_id e' = ex_next_id e + Z.of_nat (length l).
Proof.
  intros V R S H. destruct (batch_level c e V R S) as [L G]. pose proof H as H0. apply (accepts_play _ _ _ _ V R) in H as (outs & H & A).
  destruct (batch_down c V l _ _ _ L G H A) as [F M]. pose proof (batch_up c V l _ L G F) as U.
  split. { destruct H0 as (os & H0 & _). rewrite <- (exec_run c _ e V R), H0 in U. cbn [seen] in U. rewrite H0.
    apply (f_equal (fun x => match x with Done p => snd p | Panic _ => [] end)) in U. cbn [snd] in U. rewrite U. reflexivity. }
  assert (W : m_reserved (m_after c (machine_of e) l) = need c (m_full (machine_of e) l) (m_pos (machine_of e))).
  { destruct l as [|t l]; [|reflexivity]. cbn [m_after m_reserved]. unfold m_full. cbn [entered]. rewrite app_nil_r. exact L. }
  assert (R' : reachable c e').
  { destruct H0 as (o & H0 & _). destruct R as (ops & os & e0 & I & K). exists (ops ++ map sent l), (os ++ o), e0. split; [exact I|]. apply run_app. exists e, os, o. auto. }
  pose proof (reachable_inv c e' (vc_max _ V) R') as I'.
  pose proof (f_equal m_orders M) as M1. pose proof (f_equal m_reserved M) as M2. pose proof (f_equal m_book M) as M3. pose proof (f_equal m_held M) as M4. pose proof (f_equal m_next M) as M5.
  pose proof (f_equal m_pos M) as M6. rewrite W in M2. cbn [machine_of m_after m_orders m_reserved m_book m_held m_next] in M1, M2, M3, M4, M5.
  change (m_full (machine_of e) l) with (book_with e l) in *.
  change (position_quantity (ex_pos e') = position_quantity (ex_pos e)) in M6. change (m_pos (machine_of e)) with (position_quantity (ex_pos e)) in M2.
  split; [exact M1|]. split.
  { unfold in_sync. rewrite order_margin_internal_eq by (first [exact (good_of_inv _ _ I') | exact (inv_pos _ _ I') | intros _; apply (vc_imr _ V)]). rewrite req_need, M1, M6, M2. reflexivity. }
  split; [exact M2|]. split.
  { rewrite <- !machine_wallet. unfold m_free. cbn [machine_of m_book m_held m_reserved]. rewrite M3, M4. lia. }
  split; [exact M3|]. split; [exact M4|exact M5].
Qed.

(** ** Any order *)
Definition clear_book (c : config) (e : exchange) (b : list limit_order) : Prop :=
  ex_pos e = Neutral \/ no_ties b \/ exists g, exact_book (c_kind c) (c_scale c) g (position_quantity (ex_pos e)) b.
Lemma pairs_entered sd ts l : forall i, pairs sd (entered ts i l) = flat_map (fun t => if side_eq_dec (t_side t) sd then [(t_price t, t_qty t)] else []) l.
Proof. unfold pairs. induction l as [|t l IH]; intros i; [reflexivity|]. cbn [entered flat_map lo_side lo_price lo_rem]. rewrite IH. reflexivity. Qed.
Lemma need_same c e b b' : valid_config c -> good_book b -> clear_book c e b -> (forall sd, Permutation (pairs sd b) (pairs sd b')) ->
  need c b (position_quantity (ex_pos e)) = need c b' (position_quantity (ex_pos e)).
Proof.
  intros V G C P. rewrite <- !req_need. unfold req at 2.
  assert (X : exists g, ex_pos e = Neutral \/ no_ties b \/ exact_book (c_kind c) (c_scale c) g (position_quantity (ex_pos e)) b).
  { destruct C as [C|[C|[g C]]]; [exists 0|exists 0|exists g]; auto. }
  destruct X as [g X]. eapply req_any with (g := g); try eassumption; [apply (vc_scale _ V)| |].
  - destruct (sorted_arranged Buy b') as [H1 H2]. split; [|exact H2]. rewrite H1. symmetry. apply P.
  - destruct (sorted_arranged Sell b') as [H1 H2]. split; [|exact H2]. rewrite H1. symmetry. apply P.
Qed.
Lemma shape_entered ts l : forall i, map shape (entered ts i l) = map (fun t => (t_side t, t_price t, t_qty t, t_uid t)) l.
Proof. induction l as [|t l IH]; intros i; [reflexivity|]. cbn [entered map]. rewrite IH. reflexivity. Qed.

Lemma book_pairs e l l' : Permutation l l' -> forall sd, Permutation (pairs sd (book_with e l)) (pairs sd (book_with e l')).
Proof. intros P sd. unfold book_with. rewrite !pairs_app, !pairs_entered. apply Permutation_app_head. apply Permutation_flat_map. exact P. Qed.
Lemma book_good c e l : valid_config c -> reachable c e -> (forall t, In t l -> suits c e t) -> good_book (book_with e l).
Proof.
  intros V R H. apply good_app; [exact (good_of_inv _ _ (reachable_inv c e (vc_max _ V) R))|]. apply entered_good. intros t T. destruct (H t T) as (? & ? & _). auto.
Qed.

Lemma batch_any_order c e l l' e1 : valid_config c -> reachable c e -> in_sync c e -> Permutation l l' -> clear_book c e (book_with e l) -> accepts c e l e1 ->
  exists e2, accepts c e l' e2 /\ wallet_of e2 = wallet_of e1 /\ order_margin_of e2 = order_margin_of e1 /\ statement_of e2 = statement_of e1 /\
    position_margin_of e2 = position_margin_of e1 /\ ex_next_id e2 = ex_next_id e1 /\ Permutation (map shape (ex_active e2)) (map shape (ex_active e1)).
Proof.
  intros V R S P C H. pose proof (proj1 (batch_exactly c e l V R S) (ex_intro _ e1 H)) as [A B].
  assert (N : need c (book_with e l') (position_quantity (ex_pos e)) = need c (book_with e l) (position_quantity (ex_pos e))).
  { symmetry. apply need_same; [exact V|exact (book_good c e l V R A)|exact C|apply book_pairs; exact P]. }
  assert (F : batch_fine c e l').
  { split. { intros t T. apply A. rewrite P. exact T. } intros NE. rewrite N, <- (Permutation_length P). apply B. intros ->. apply NE. apply Permutation_nil. exact P. }
  apply (batch_exactly c e l' V R S) in F as [e2 H2]. exists e2. split; [exact H2|].
  destruct (batch_result c e l e1 V R S H) as (_ & A1 & _ & B1 & C1 & D1 & E1 & F1). destruct (batch_result c e l' e2 V R S H2) as (_ & A2 & _ & B2 & C2 & D2 & E2 & F2).
  split; [lia|]. split; [congruence|]. split; [congruence|]. split; [congruence|]. split; [rewrite F1, F2, (Permutation_length P); reflexivity|].
  rewrite A1, A2. unfold book_with. rewrite !map_app, !shape_entered. apply Permutation_app_head. apply Permutation_map. symmetry. exact P.
Qed.

Lemma entered_app ts l1 l2 : forall i, entered ts i (l1 ++ l2) = entered ts i l1 ++ entered ts (i + Z.of_nat (length l1)) l2.
Proof.
  induction l1 as [|t l1 IH]; intros i; cbn [app entered length]; [f_equal; lia|]. rewrite IH. do 3 f_equal. lia.
Qed.
Lemma batch_fewer c e l l1 l2 e1 : valid_config c -> reachable c e -> in_sync c e -> Permutation l (l1 ++ l2) -> clear_book c e (book_with e l) -> accepts c e l e1 ->
  exists e2, accepts c e l1 e2 /\ wallet_of e1 <= wallet_of e2.
Proof.
  intros V R S P C H. destruct (batch_any_order c e l (l1 ++ l2) e1 V R S P C H) as (e2 & H2 & W & _).
  pose proof (proj1 (batch_exactly c e _ V R S) (ex_intro _ e2 H2)) as [A B].
  assert (N : need c (book_with e l1) (position_quantity (ex_pos e)) <= need c (book_with e (l1 ++ l2)) (position_quantity (ex_pos e))).
  { pose proof (book_good c e _ V R A) as G. unfold book_with in *. rewrite entered_app, app_assoc in *. apply need_app; [apply (vc_scale _ V)|apply (vc_imr _ V)|exact G]. }
  assert (F : batch_fine c e l1).
  { split. { intros t T. apply A. apply in_or_app. auto. } intros NE. destruct B as [B1 B2]. { destruct l1; [contradiction|discriminate]. } rewrite app_length in B1. split; lia. }
  apply (batch_exactly c e l1 V R S) in F as [e3 H3]. exists e3. split; [exact H3|].
  destruct (batch_result c e _ e2 V R S H2) as (_ & _ & _ & B2 & C2 & _). destruct (batch_result c e l1 e3 V R S H3) as (_ & _ & _ & B3 & C3 & _). lia.
Qed.
