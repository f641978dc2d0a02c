(** A limit order that is never filled. *)
From Coq Require Import Permutation.
From Verif Require Import ProofBase BookLemmas Inv Types Accounting Filters Position OrderBook OrderMargin MarketUpdate Exchange Spec SpecConfig SpecMarket SpecFlow SpecMargin SpecPanic
  SpecMachine SpecCrash MachineProof CashProof OrderProof HealthProof SpecGhost.

Record beside (g : limit_order) (m1 m2 : machine) : Prop := {
  bs_book : m_book m1 = m_book m2;
  bs_held : m_held m1 = m_held m2;
  bs_bid : m_bid m1 = m_bid m2;
  bs_ask : m_ask m1 = m_ask m2;
  bs_time : m_time m1 = m_time m2;
  bs_next : m_next m1 = m_next m2 + 1;
  bs_old : lo_id g < m_next m1;
  bs_orders : exists l, Permutation (m_orders m1) (g :: l) /\ Permutation (m_orders m2) (map (earlier_order (lo_id g)) l)
}.
Definition distinct (m : machine) : Prop := NoDup (map lo_id (m_orders m)).

Lemma earlier_inj g i j : i <> g -> j <> g -> earlier g i = earlier g j -> i = j.
Proof. unfold earlier. destruct (Z.ltb_spec g i), (Z.ltb_spec g j); lia. Qed.
Lemma earlier_touched ru g o : touched ru (earlier_order g o) = touched ru o.
Proof. destruct ru; reflexivity. Qed.

(** ** Executions *)
Lemma beside_fill c g m1 m2 f : beside g m1 m2 -> beside g (m_fill c m1 f) (m_fill c m2 f).
Proof. intros [B H Bi A T N O P]. constructor; cbn [m_fill m_book m_held m_bid m_ask m_time m_next m_orders]; try assumption; rewrite ?B, ?H; reflexivity. Qed.
Lemma beside_id g m1 m2 : beside g m1 m2 -> beside g (with_id m1) (with_id m2).
Proof. intros [B H Bi A T N O P]. constructor; cbn [with_id m_book m_held m_bid m_ask m_time m_next m_orders]; try assumption; lia. Qed.
Lemma beside_quote g m1 m2 ru : beside g m1 m2 -> beside g (with_quote m1 ru) (with_quote m2 ru).
Proof. intros [B H Bi A T N O P]. constructor; cbn [with_quote m_book m_held m_bid m_ask m_time m_next m_orders]; rewrite ?Bi, ?A; try assumption; reflexivity. Qed.
Lemma beside_orders g m1 m2 l1 l2 r1 r2 : beside g m1 m2 -> (exists l, Permutation l1 (g :: l) /\ Permutation l2 (map (earlier_order (lo_id g)) l)) ->
  beside g (with_orders m1 l1 r1) (with_orders m2 l2 r2).
Proof. intros [B H Bi A T N O P] Q. constructor; cbn [with_orders m_book m_held m_bid m_ask m_time m_next m_orders]; assumption. Qed.
Lemma beside_taken c g m1 m2 sd q : beside g m1 m2 -> taken c m1 sd q = taken c m2 sd q.
Proof. intros [B H Bi A T N O P]. unfold taken, m_price. rewrite Bi, A. reflexivity. Qed.
Lemma beside_pos g m1 m2 : beside g m1 m2 -> m_pos m1 = m_pos m2.
Proof. intros [B H Bi A T N O P]. unfold m_pos. rewrite B. reflexivity. Qed.
Lemma beside_due c g m1 m2 : beside g m1 m2 -> m_due c m1 = m_due c m2.
Proof. intros [B H Bi A T N O P]. unfold m_due, m_pos. rewrite B, Bi, A. reflexivity. Qed.

(** ** One order *)
Lemma not_ghost g l l0 o : NoDup (map lo_id l0) -> Permutation l0 (g :: l) -> In o l -> lo_id o <> lo_id g.
Proof.
  intros N P I E. apply (Permutation_map lo_id) in P. apply (Permutation_NoDup P) in N. cbn in N. inversion N; subst. apply H1. rewrite <- E. apply in_map, I.
Qed.
Lemma taken_out l0 o l : NoDup (map lo_id l0) -> Permutation l0 (o :: l) -> Permutation (take_out (named (ByOrderId (lo_id o))) l0) l.
Proof.
  intros N P. assert (I : In o l0) by (apply (Permutation_in _ (Permutation_sym P)); left; reflexivity).
  pose proof (take_perm _ _ _ (find_id _ _ N I)) as Q. apply Permutation_cons_inv with (a := o). rewrite <- Q. exact P.
Qed.
Lemma swapped_in l0 o o' l : NoDup (map lo_id l0) -> Permutation l0 (o :: l) -> Permutation (map (fun x => if lo_id x =? lo_id o then o' else x) l0) (o' :: l).
Proof.
  intros N P. assert (I : In o l0) by (apply (Permutation_in _ (Permutation_sym P)); left; reflexivity).
  destruct (replaced_perm o o' l0 N I) as (r & Q & R). unfold replaced in R. rewrite R. apply perm_skip. apply Permutation_cons_inv with (a := o). rewrite <- Q. exact P.
Qed.
(** The two books without an order that both have. *)
Lemma both_have g m1 m2 x : beside g m1 m2 -> distinct m1 -> In x (m_orders m1) -> lo_id x <> lo_id g ->
  exists l, Permutation (m_orders m1) (g :: x :: l) /\ Permutation (m_orders m2) (earlier_order (lo_id g) x :: map (earlier_order (lo_id g)) l).
Proof.
  intros B N I D. destruct (bs_orders _ _ _ B) as (l & P & Q). apply (Permutation_in _ P) in I. destruct I as [<-|I]; [contradiction|].
  apply in_split in I as (a & b & ->). exists (a ++ b). split; [rewrite P; apply perm_skip; symmetry; apply Permutation_middle|].
  rewrite Q, !map_app. cbn [map]. symmetry. apply Permutation_middle.
Qed.
Lemma beside_meet c ru g m1 m2 x : beside g m1 m2 -> distinct m1 -> distinct m2 -> In x (m_orders m1) -> lo_id x <> lo_id g ->
  beside g (m_meet c ru m1 x) (m_meet c ru m2 (earlier_order (lo_id g) x)).
Proof.
  intros B N1 N2 I D. destruct (both_have g m1 m2 x B N1 I D) as (l & P & Q). unfold m_meet. rewrite earlier_touched.
  destruct (touched ru x) as [q|]; [|exact B]. cbn [earlier_order lo_side lo_price].
  apply beside_orders; [apply beside_fill, B|].
  assert (P' : Permutation (m_orders m1) (x :: g :: l)) by (rewrite P; apply perm_swap).
  unfold reported_as. cbn [earlier_order lo_rem lo_id]. destruct (q =? lo_rem x).
  - exists l. split; [apply (taken_out _ _ _ N1 P') | apply (taken_out _ _ _ N2 Q)].
  - eexists (_ :: l). split; [rewrite (swapped_in _ _ _ _ N1 P'); apply perm_swap|]. 
    change (earlier (lo_id g) (lo_id x)) with (lo_id (earlier_order (lo_id g) x)). rewrite (swapped_in _ _ _ _ N2 Q). reflexivity.
Qed.

(** ** All orders *)
Lemma meets_none c ru l : filter (hits ru) l = [] -> forall m, fold_left (m_meet c ru) l m = m.
Proof.
  induction l as [|o l IH]; intros F m; [reflexivity|]. cbn [filter] in F. unfold hits at 1 in F. cbn [fold_left]. unfold m_meet at 2. destruct (touched ru o); [discriminate|]. apply IH, F.
Qed.
Lemma meets_one c ru l x : filter (hits ru) l = [x] -> forall m, fold_left (m_meet c ru) l m = m_meet c ru m x.
Proof.
  induction l as [|o l IH]; intros F m; [discriminate|]. cbn [filter] in F. cbn [fold_left]. unfold hits at 1 in F. destruct (touched ru o) eqn:E.
  - injection F as <- F. apply meets_none, F.
  - assert (Z : m_meet c ru m o = m) by (unfold m_meet; rewrite E; reflexivity). rewrite Z. apply IH, F.
Qed.
Lemma filter_earlier ru g l : filter (hits ru) (map (earlier_order g) l) = map (earlier_order g) (filter (hits ru) l).
Proof. induction l as [|o l IH]; [reflexivity|]. cbn [map filter]. assert (E : hits ru (earlier_order g o) = hits ru o) by (unfold hits; rewrite earlier_touched; reflexivity). rewrite E, IH. destruct (hits ru o); reflexivity. Qed.
Lemma perm_filter {A} (f : A -> bool) l l' : Permutation l l' -> Permutation (filter f l) (filter f l').
Proof.
  induction 1; cbn; [constructor | destruct (f x); [constructor|]; assumption | destruct (f x), (f y); try apply perm_swap; reflexivity | etransitivity; eassumption].
Qed.
Lemma beside_meets c ru g m1 m2 : beside g m1 m2 -> distinct m1 -> distinct m2 -> touched ru g = None -> (length (filter (hits ru) (m_orders m1)) <= 1)%nat ->
  beside g (m_meet_all c ru m1) (m_meet_all c ru m2).
Proof.
  intros B N1 N2 T L. unfold m_meet_all. destruct (bs_orders _ _ _ B) as (l & P & Q).
  pose proof (perm_filter (hits ru) _ _ P) as P'. pose proof (perm_filter (hits ru) _ _ Q) as Q'. rewrite filter_earlier in Q'. cbn [filter] in P'. unfold hits at 2 in P'. rewrite T in P'.
  destruct (filter (hits ru) (m_orders m1)) as [|x [|y r]] eqn:F; [| |cbn in L; lia].
  - apply Permutation_nil in P'. rewrite P' in Q'. cbn in Q'. apply Permutation_sym, Permutation_nil in Q'. rewrite !meets_none by assumption. exact B.
  - apply Permutation_length_1_inv in P'. rewrite P' in Q'. cbn [map] in Q'. apply Permutation_sym, Permutation_length_1_inv in Q'.
    rewrite (meets_one c ru _ _ F), (meets_one c ru _ _ Q').
    assert (I : In x (filter (hits ru) l)) by (rewrite P'; left; reflexivity). apply filter_In in I as [I _].
    apply beside_meet; try assumption; [apply (Permutation_in _ (Permutation_sym P)); right; exact I | apply (not_ghost g l _ x N1 P I)].
Qed.

(** ** Calls *)
Lemma beside_submit c g m1 m2 sd p q uid : beside g m1 m2 -> accepted (snd (m_submit c m1 sd p q uid)) = accepted (snd (m_submit c m2 sd p q uid)) ->
  beside g (fst (m_submit c m1 sd p q uid)) (fst (m_submit c m2 sd p q uid)).
Proof.
  intros B A. unfold m_submit in *. rewrite (bs_bid _ _ _ B), (bs_ask _ _ _ B) in *.
  destruct (quantity_fault _ _); [exact B|]. destruct (price_fault _ _ _ _); [exact B|].
  set (t1 := _ <? _) in *. set (t2 := (m_free m2 + _) <? _) in *. set (gtc := match sd with Buy => _ | Sell => _ end) in *.
  set (f1 := c_max c <=? Z.of_nat (length (m_orders m1))) in *. set (f2 := c_max c <=? Z.of_nat (length (m_orders m2))) in *.
  destruct t1, t2, gtc, f1, f2; cbn [fst snd accepted] in *; try discriminate A; try (apply beside_id, B).
  apply beside_id, beside_orders; [exact B|]. destruct (bs_orders _ _ _ B) as (l & P & Q).
  exists (l ++ [{| lo_uid := uid; lo_side := sd; lo_price := p; lo_rem := q; lo_id := m_next m1; lo_ts := m_time m1; lo_filled := Unfilled |}]).
  split; [apply (Permutation_app_tail _ P)|]. rewrite Q, map_app. apply Permutation_app_head. unfold earlier_order, earlier. cbn [map lo_uid lo_side lo_price lo_rem lo_id lo_ts lo_filled].
  pose proof (bs_old _ _ _ B). destruct (Z.ltb_spec (lo_id g) (m_next m1)); [|lia]. rewrite (bs_next _ _ _ B), (bs_time _ _ _ B).
  replace (m_next m2 + 1 - 1) with (m_next m2) by lia. reflexivity.
Qed.
(** What is found by id. *)
Lemma beside_find g m1 m2 i : beside g m1 m2 -> distinct m1 -> distinct m2 -> i <> lo_id g ->
  find (named (ByOrderId (earlier (lo_id g) i))) (m_orders m2) = option_map (earlier_order (lo_id g)) (find (named (ByOrderId i)) (m_orders m1)).
Proof.
  intros B N1 N2 D. destruct (find (named (ByOrderId i)) (m_orders m1)) as [x|] eqn:F; cbn [option_map].
  - apply find_some in F as [I E]. cbn [named] in E. apply Z.eqb_eq in E. subst i. destruct (both_have g m1 m2 x B N1 I D) as (l & P & Q).
    apply (find_id _ (earlier_order (lo_id g) x) N2). apply (Permutation_in _ (Permutation_sym Q)). left. reflexivity.
  - destruct (find _ (m_orders m2)) as [y|] eqn:F2; [exfalso|reflexivity]. apply find_some in F2 as [I E]. cbn [named] in E. apply Z.eqb_eq in E.
    destruct (bs_orders _ _ _ B) as (l & P & Q). apply (Permutation_in _ Q) in I. apply in_map_iff in I as (x & <- & I). cbn [earlier_order lo_id] in E.
    apply earlier_inj in E; [|apply (not_ghost g l _ x N1 P I)|exact D].
    pose proof (find_none _ _ F x (Permutation_in _ (Permutation_sym P) (or_intror I))) as K. cbn [named] in K. apply Z.eqb_neq in K. contradiction.
Qed.
Lemma beside_drop c g m1 m2 x : beside g m1 m2 -> distinct m1 -> distinct m2 -> In x (m_orders m1) -> lo_id x <> lo_id g ->
  beside g (m_drop c m1 (ByOrderId (lo_id x))) (m_drop c m2 (ByOrderId (earlier (lo_id g) (lo_id x)))).
Proof.
  intros B N1 N2 I D. destruct (both_have g m1 m2 x B N1 I D) as (l & P & Q). unfold m_drop. apply beside_orders; [exact B|]. exists l.
  split; [apply (taken_out _ _ _ N1); rewrite P; apply perm_swap | apply (taken_out _ (earlier_order (lo_id g) x) _ N2 Q)].
Qed.
Lemma beside_call c g m1 m2 o : beside g m1 m2 -> distinct m1 -> distinct m2 -> leaves_alone (lo_id g) o -> misses g o ->
  match data_of o with Some ru => (length (filter (hits ru) (m_orders m1)) <= 1)%nat | None => True end ->
  accepted (snd (m_call c m1 o)) = accepted (snd (m_call c m2 (earlier_op (lo_id g) o))) ->
  beside g (fst (m_call c m1 o)) (fst (m_call c m2 (earlier_op (lo_id g) o))).
Proof.
  intros B N1 N2 L M H A. destruct o as [ru|sd q uid|sd p q uid|[i|u]|i sd p q uid|ru]; cbn [earlier_op m_call leaves_alone misses data_of fst] in *.
  - unfold m_update in *. pose proof (beside_quote _ _ _ ru B) as B1. rewrite (beside_due c _ _ _ B1), (beside_pos _ _ _ B1).
    destruct (m_due c (with_quote m2 ru)); cbn [fst].
    + rewrite (beside_taken c _ _ _ _ _ B1). apply beside_id, beside_fill, B1.
    + apply beside_meets; assumption.
  - unfold m_market in *. rewrite (beside_taken c _ _ _ sd q B) in *. destruct (q <=? 0); [exact B|]. destruct (quantity_fault _ _); [exact B|].
    destruct (m_funded c m1 sd q), (m_funded c m2 sd q); cbn [fst snd accepted] in *; try discriminate A; apply beside_id; [apply beside_fill|]; exact B.
  - unfold m_limit in *. destruct (p <=? 0); [exact B|]. destruct (q <=? 0); [exact B|]. apply beside_submit; assumption.
  - unfold m_cancel in *. rewrite (beside_find g m1 m2 i B N1 N2 L) in *. destruct (find (named (ByOrderId i)) (m_orders m1)) as [x|] eqn:F; cbn [option_map fst]; [|exact B].
    apply find_some in F as [I E]. cbn [named] in E. apply Z.eqb_eq in E. subst i. apply beside_drop; assumption.
  - contradiction.
  - unfold m_amend in *. destruct (p <=? 0); [exact B|]. destruct (q <=? 0); [exact B|]. rewrite (beside_find g m1 m2 i B N1 N2 L) in *.
    destruct (find (named (ByOrderId i)) (m_orders m1)) as [x|] eqn:F; cbn [option_map] in *; [|exact B].
    apply find_some in F as [I E]. cbn [named] in E. apply Z.eqb_eq in E. subst i. pose proof (beside_drop c g m1 m2 x B N1 N2 I L) as B1.
    change (lo_filled_qty (earlier_order (lo_id g) x)) with (lo_filled_qty x) in *. destruct (q - lo_filled_qty x <=? 0); [exact B1|]. apply beside_submit; assumption.
  - apply beside_meets; assumption.
Qed.

(** ** Histories *)
Lemma distinct_of c e : valid_config c -> reachable c e -> distinct (machine_of e).
Proof. intros V R. exact (inv_nodup _ _ (reachable_inv c e (vc_max _ V) R)). Qed.
Lemma beside_run c g ops : valid_config c -> forall e1 e2 f1 f2 o1 o2, reachable c e1 -> reachable c e2 -> beside g (machine_of e1) (machine_of e2) ->
  (forall o, In o ops -> leaves_alone (lo_id g) o /\ misses g o) -> one_by_one c e1 ops ->
  run c e1 ops = Done (f1, o1) -> run c e2 (map (earlier_op (lo_id g)) ops) = Done (f2, o2) -> map accepted o1 = map accepted o2 ->
  beside g (machine_of f1) (machine_of f2).
Proof.
  intros V. induction ops as [|o ops IH]; intros e1 e2 f1 f2 o1 o2 R1 R2 B L O H1 H2 A; cbn [map run] in H1, H2.
  - injection H1 as <- <-. injection H2 as <- <-. exact B.
  - destruct O as [O1 O2]. destruct (step c e1 o) as [[d1 r1]|] eqn:S1; [|discriminate]. destruct (step c e2 _) as [[d2 r2]|] eqn:S2 in H2; [|discriminate]. cbn [bind] in H1, H2.
    destruct (run c d1 ops) as [[k1 rs1]|] eqn:K1; [|discriminate]. destruct (run c d2 _) as [[k2 rs2]|] eqn:K2 in H2; [|discriminate].
    cbn in H1, H2. injection H1 as <- <-. injection H2 as <- <-. cbn [map] in A. injection A as A0 A.
    destruct (L o (or_introl eq_refl)) as [L1 L2].
    refine (IH d1 d2 k1 k2 rs1 rs2 (reach_step _ _ _ _ _ R1 S1) (reach_step _ _ _ _ _ R2 S2) _ (fun x I => L x (or_intror I)) O2 K1 K2 A).
    pose proof (machine_step _ _ _ _ _ V R1 S1) as M1. pose proof (machine_step _ _ _ _ _ V R2 S2) as M2.
    pose proof (beside_call c g _ _ o B (distinct_of _ _ V R1) (distinct_of _ _ V R2) L1 L2) as K. unfold one_hit in O1.
    rewrite M1, M2 in K. cbn [fst snd] in K. apply K; assumption.
Qed.

(** ** Quantities, also when several orders are filled at a time *)
Record near (g : limit_order) (m1 m2 : machine) : Prop := {
  nr_pos : m_pos m1 = m_pos m2;
  nr_bid : m_bid m1 = m_bid m2;
  nr_ask : m_ask m1 = m_ask m2;
  nr_time : m_time m1 = m_time m2;
  nr_next : m_next m1 = m_next m2 + 1;
  nr_old : lo_id g < m_next m1;
  nr_orders : exists l, Permutation (m_orders m1) (g :: l) /\ Permutation (m_orders m2) (map (earlier_order (lo_id g)) l)
}.
Lemma near_id g m1 m2 : near g m1 m2 -> near g (with_id m1) (with_id m2).
Proof. intros [B Bi A T N O P]. constructor; cbn [with_id m_bid m_ask m_time m_next m_orders]; try assumption; lia. Qed.
Lemma near_quote g m1 m2 ru : near g m1 m2 -> near g (with_quote m1 ru) (with_quote m2 ru).
Proof. intros [B Bi A T N O P]. constructor; cbn [with_quote m_bid m_ask m_time m_next m_orders]; rewrite ?Bi, ?A; try assumption; reflexivity. Qed.
Lemma near_orders g m1 m2 l1 l2 r1 r2 : near g m1 m2 -> (exists l, Permutation l1 (g :: l) /\ Permutation l2 (map (earlier_order (lo_id g)) l)) ->
  near g (with_orders m1 l1 r1) (with_orders m2 l2 r2).
Proof. intros [B Bi A T N O P] Q. constructor; cbn [with_orders m_bid m_ask m_time m_next m_orders]; assumption. Qed.
Lemma fill_pos c m f : m_pos (m_fill c m f) = m_pos m + signed_qty f.
Proof. unfold m_pos. cbn [m_fill m_book]. unfold apply_fill. destruct (Z.eqb_spec (l_qty (m_book m)) 0) as [E|E]; [cbn; lia|]. destruct (_ =? _); reflexivity. Qed.
Lemma near_fill c g m1 m2 f1 f2 : near g m1 m2 -> signed_qty f1 = signed_qty f2 -> near g (m_fill c m1 f1) (m_fill c m2 f2).
Proof. intros [B Bi A T N O P] E. constructor; [rewrite !fill_pos; congruence|..]; cbn [m_fill m_bid m_ask m_time m_next m_orders]; assumption. Qed.

Definition stays (c : config) (ru : raw_update) (o : limit_order) : list limit_order :=
  match touched ru o with
  | None => [o]
  | Some q => match reported_as (c_scale c) o q (time_of ru) with FullyFilled _ => [] | PartiallyFilled o' => [o'] end
  end.
Definition shift (ru : raw_update) (o : limit_order) : Z := match touched ru o with None => 0 | Some q => match lo_side o with Buy => q | Sell => - q end end.
Lemma stays_earlier c ru g o : stays c ru (earlier_order g o) = map (earlier_order g) (stays c ru o).
Proof. unfold stays. rewrite earlier_touched. destruct (touched ru o) as [q|]; [|reflexivity]. unfold reported_as. cbn [earlier_order lo_rem]. destruct (q =? lo_rem o); reflexivity. Qed.
Lemma shift_earlier ru g o : shift ru (earlier_order g o) = shift ru o.
Proof. unfold shift. rewrite earlier_touched. reflexivity. Qed.
Lemma meet_one c ru m x rest : Permutation (m_orders m) (x :: rest) -> distinct m ->
  Permutation (m_orders (m_meet c ru m x)) (stays c ru x ++ rest) /\ m_pos (m_meet c ru m x) = m_pos m + shift ru x /\
  m_bid (m_meet c ru m x) = m_bid m /\ m_ask (m_meet c ru m x) = m_ask m /\ m_time (m_meet c ru m x) = m_time m /\ m_next (m_meet c ru m x) = m_next m.
Proof.
  intros P N. unfold m_meet, stays, shift. destruct (touched ru x) as [q|]; [|split; [exact P|]; split; [lia | auto]].
  split; [|split; [|auto]].
  - cbn [with_orders m_orders]. destruct (reported_as _ x q _); [exact (swapped_in _ _ _ _ N P) | exact (taken_out _ _ _ N P)].
  - change (m_pos (m_fill c m {| f_side := lo_side x; f_qty := q; f_price := lo_price x; f_rate := ct_maker (c_spec c) |}) = m_pos m + match lo_side x with Buy => q | Sell => - q end).
    rewrite fill_pos. unfold signed_qty. cbn. destruct (lo_side x); reflexivity.
Qed.
Lemma stays_distinct c ru x rest : NoDup (map lo_id (x :: rest)) -> NoDup (map lo_id (stays c ru x ++ rest)).
Proof.
  intros N. cbn [map] in N. inversion N; subst. unfold stays. destruct (touched ru x) as [q|]; [|constructor; assumption]. unfold reported_as. destruct (q =? lo_rem x); cbn; [assumption|constructor; assumption].
Qed.
Lemma meets_list c ru r : forall m rest, Permutation (m_orders m) (r ++ rest) -> distinct m ->
  let m' := fold_left (m_meet c ru) r m in
  Permutation (m_orders m') (flat_map (stays c ru) r ++ rest) /\ m_pos m' = m_pos m + sumZ (map (shift ru) r) /\
  m_bid m' = m_bid m /\ m_ask m' = m_ask m /\ m_time m' = m_time m /\ m_next m' = m_next m.
Proof.
  induction r as [|x r IH]; intros m rest P N; cbn [fold_left].
  - cbn. split; [exact P|]. split; [unfold m_pos; lia | auto].
  - destruct (meet_one c ru m x (r ++ rest) P N) as (P1 & E1 & E2 & E3 & E4 & E5).
    assert (N1 : distinct (m_meet c ru m x)).
    { unfold distinct. apply (Permutation_NoDup (Permutation_sym (Permutation_map lo_id P1))). apply stays_distinct. apply (Permutation_NoDup (Permutation_map lo_id P)). exact N. }
    destruct (IH (m_meet c ru m x) (stays c ru x ++ rest)) as (P2 & F1 & F2 & F3 & F4 & F5); [|exact N1|].
    { rewrite P1. rewrite !app_assoc. apply Permutation_app_tail, Permutation_app_comm. }
    split; [rewrite P2; cbn [flat_map]; rewrite !app_assoc; apply Permutation_app_tail, Permutation_app_comm|].
    rewrite F1, F2, F3, F4, F5, E1, E2, E3, E4, E5. cbn [map]. split; [|auto]. unfold sumZ. cbn [fold_right]. lia.
Qed.
Lemma meets_all c ru m : distinct m -> let m' := m_meet_all c ru m in
  Permutation (m_orders m') (flat_map (stays c ru) (m_orders m)) /\ m_pos m' = m_pos m + sumZ (map (shift ru) (m_orders m)) /\
  m_bid m' = m_bid m /\ m_ask m' = m_ask m /\ m_time m' = m_time m /\ m_next m' = m_next m.
Proof.
  intros N. destruct (meets_list c ru (m_orders m) m [] ltac:(rewrite app_nil_r; reflexivity) N) as (P & Q). rewrite app_nil_r in P. exact (conj P Q).
Qed.
Lemma sum_perm l l' : Permutation l l' -> sumZ l = sumZ l'.
Proof. unfold sumZ. induction 1; cbn; lia. Qed.
Lemma near_meets c ru g m1 m2 : near g m1 m2 -> distinct m1 -> distinct m2 -> touched ru g = None -> near g (m_meet_all c ru m1) (m_meet_all c ru m2).
Proof.
  intros B N1 N2 T. destruct (meets_all c ru m1 N1) as (P1 & E1 & E2 & E3 & E4 & E5). destruct (meets_all c ru m2 N2) as (P2 & F1 & F2 & F3 & F4 & F5).
  destruct B as [B Bi A Ti N O (l & P & Q)]. constructor; try congruence; try lia.
  - rewrite E1, F1, B. f_equal. rewrite (sum_perm _ _ (Permutation_map (shift ru) P)), (sum_perm _ _ (Permutation_map (shift ru) Q)).
    assert (X : map (shift ru) (map (earlier_order (lo_id g)) l) = map (shift ru) l) by (rewrite map_map; apply map_ext; intros x; apply shift_earlier). rewrite X. unfold sumZ. cbn [map fold_right]. unfold shift at 1. rewrite T. reflexivity.
  - exists (flat_map (stays c ru) l). split.
    + rewrite P1, (Permutation_flat_map (stays c ru) P). cbn [flat_map]. unfold stays at 1. rewrite T. reflexivity.
    + rewrite P2, (Permutation_flat_map (stays c ru) Q). clear. induction l as [|o l IH]; [reflexivity|]. cbn [map flat_map]. rewrite map_app, stays_earlier. apply Permutation_app_head, IH.
Qed.
Lemma near_submit c g m1 m2 sd p q uid : near g m1 m2 -> accepted (snd (m_submit c m1 sd p q uid)) = accepted (snd (m_submit c m2 sd p q uid)) ->
  near g (fst (m_submit c m1 sd p q uid)) (fst (m_submit c m2 sd p q uid)).
Proof.
  intros B A. unfold m_submit in *. rewrite (nr_bid _ _ _ B), (nr_ask _ _ _ B) in *.
  destruct (quantity_fault _ _); [exact B|]. destruct (price_fault _ _ _ _); [exact B|].
  set (t1 := _ <? _) in *. set (t2 := (m_free m2 + _) <? _) in *. set (gtc := match sd with Buy => _ | Sell => _ end) in *.
  set (f1 := c_max c <=? Z.of_nat (length (m_orders m1))) in *. set (f2 := c_max c <=? Z.of_nat (length (m_orders m2))) in *.
  destruct t1, t2, gtc, f1, f2; cbn [fst snd accepted] in *; try discriminate A; try (apply near_id, B).
  apply near_id, near_orders; [exact B|]. destruct (nr_orders _ _ _ B) as (l & P & Q).
  exists (l ++ [{| lo_uid := uid; lo_side := sd; lo_price := p; lo_rem := q; lo_id := m_next m1; lo_ts := m_time m1; lo_filled := Unfilled |}]).
  split; [apply (Permutation_app_tail _ P)|]. rewrite Q, map_app. apply Permutation_app_head. unfold earlier_order, earlier. cbn [map lo_uid lo_side lo_price lo_rem lo_id lo_ts lo_filled].
  pose proof (nr_old _ _ _ B). destruct (Z.ltb_spec (lo_id g) (m_next m1)); [|lia]. rewrite (nr_next _ _ _ B), (nr_time _ _ _ B).
  replace (m_next m2 + 1 - 1) with (m_next m2) by lia. reflexivity.
Qed.
Lemma near_have g m1 m2 x : near g m1 m2 -> In x (m_orders m1) -> lo_id x <> lo_id g ->
  exists l, Permutation (m_orders m1) (g :: x :: l) /\ Permutation (m_orders m2) (earlier_order (lo_id g) x :: map (earlier_order (lo_id g)) l).
Proof.
  intros B I D. destruct (nr_orders _ _ _ B) as (l & P & Q). apply (Permutation_in _ P) in I. destruct I as [<-|I]; [contradiction|].
  apply in_split in I as (a & b & ->). exists (a ++ b). split; [rewrite P; apply perm_skip; symmetry; apply Permutation_middle|].
  rewrite Q, !map_app. cbn [map]. symmetry. apply Permutation_middle.
Qed.
Lemma near_find g m1 m2 i : near g m1 m2 -> distinct m1 -> distinct m2 -> i <> lo_id g ->
  find (named (ByOrderId (earlier (lo_id g) i))) (m_orders m2) = option_map (earlier_order (lo_id g)) (find (named (ByOrderId i)) (m_orders m1)).
Proof.
  intros B N1 N2 D. destruct (find (named (ByOrderId i)) (m_orders m1)) as [x|] eqn:F; cbn [option_map].
  - apply find_some in F as [I E]. cbn [named] in E. apply Z.eqb_eq in E. subst i. destruct (near_have g m1 m2 x B I D) as (l & P & Q).
    apply (find_id _ (earlier_order (lo_id g) x) N2). apply (Permutation_in _ (Permutation_sym Q)). left. reflexivity.
  - destruct (find _ (m_orders m2)) as [y|] eqn:F2; [exfalso|reflexivity]. apply find_some in F2 as [I E]. cbn [named] in E. apply Z.eqb_eq in E.
    destruct (nr_orders _ _ _ B) as (l & P & Q). apply (Permutation_in _ Q) in I. apply in_map_iff in I as (x & <- & I). cbn [earlier_order lo_id] in E.
    apply earlier_inj in E; [|apply (not_ghost g l _ x N1 P I)|exact D].
    pose proof (find_none _ _ F x (Permutation_in _ (Permutation_sym P) (or_intror I))) as K. cbn [named] in K. apply Z.eqb_neq in K. contradiction.
Qed.
Lemma near_drop c g m1 m2 x : near g m1 m2 -> distinct m1 -> distinct m2 -> In x (m_orders m1) -> lo_id x <> lo_id g ->
  near g (m_drop c m1 (ByOrderId (lo_id x))) (m_drop c m2 (ByOrderId (earlier (lo_id g) (lo_id x)))).
Proof.
  intros B N1 N2 I D. destruct (near_have g m1 m2 x B I D) as (l & P & Q). unfold m_drop. apply near_orders; [exact B|]. exists l.
  split; [apply (taken_out _ _ _ N1); rewrite P; apply perm_swap | apply (taken_out _ (earlier_order (lo_id g) x) _ N2 Q)].
Qed.
Lemma near_call c g m1 m2 o : near g m1 m2 -> distinct m1 -> distinct m2 -> leaves_alone (lo_id g) o -> misses g o ->
  accepted (snd (m_call c m1 o)) = accepted (snd (m_call c m2 (earlier_op (lo_id g) o))) ->
  near g (fst (m_call c m1 o)) (fst (m_call c m2 (earlier_op (lo_id g) o))).
Proof.
  intros B N1 N2 L M A. destruct o as [ru|sd q uid|sd p q uid|[i|u]|i sd p q uid|ru]; cbn [earlier_op m_call leaves_alone misses data_of fst] in *.
  - unfold m_update in *. pose proof (near_quote _ _ _ ru B) as B1. rewrite (nr_pos _ _ _ B1) in *.
    destruct (m_due c (with_quote m1 ru)), (m_due c (with_quote m2 ru)); cbn [fst snd accepted] in *; try discriminate A.
    + apply near_id, near_fill; [exact B1 | reflexivity].
    + apply near_meets; assumption.
  - unfold m_market in *. destruct (q <=? 0); [exact B|]. destruct (quantity_fault _ _); [exact B|].
    destruct (m_funded c m1 sd q), (m_funded c m2 sd q); cbn [fst snd accepted] in *; try discriminate A; apply near_id; [apply near_fill; [exact B | reflexivity] | exact B].
  - unfold m_limit in *. destruct (p <=? 0); [exact B|]. destruct (q <=? 0); [exact B|]. apply near_submit; assumption.
  - unfold m_cancel in *. rewrite (near_find g m1 m2 i B N1 N2 L) in *. destruct (find (named (ByOrderId i)) (m_orders m1)) as [x|] eqn:F; cbn [option_map fst]; [|exact B].
    apply find_some in F as [I E]. cbn [named] in E. apply Z.eqb_eq in E. subst i. apply near_drop; assumption.
  - contradiction.
  - unfold m_amend in *. destruct (p <=? 0); [exact B|]. destruct (q <=? 0); [exact B|]. rewrite (near_find g m1 m2 i B N1 N2 L) in *.
    destruct (find (named (ByOrderId i)) (m_orders m1)) as [x|] eqn:F; cbn [option_map] in *; [|exact B].
    apply find_some in F as [I E]. cbn [named] in E. apply Z.eqb_eq in E. subst i. pose proof (near_drop c g m1 m2 x B N1 N2 I L) as B1.
    change (lo_filled_qty (earlier_order (lo_id g) x)) with (lo_filled_qty x) in *. destruct (q - lo_filled_qty x <=? 0); [exact B1|]. apply near_submit; assumption.
  - apply near_meets; assumption.
Qed.
Lemma near_run c g ops : valid_config c -> forall e1 e2 f1 f2 o1 o2, reachable c e1 -> reachable c e2 -> near g (machine_of e1) (machine_of e2) ->
  (forall o, In o ops -> leaves_alone (lo_id g) o /\ misses g o) ->
  run c e1 ops = Done (f1, o1) -> run c e2 (map (earlier_op (lo_id g)) ops) = Done (f2, o2) -> map accepted o1 = map accepted o2 ->
  near g (machine_of f1) (machine_of f2).
Proof.
  intros V. induction ops as [|o ops IH]; intros e1 e2 f1 f2 o1 o2 R1 R2 B L H1 H2 A; cbn [map run] in H1, H2.
  - injection H1 as <- <-. injection H2 as <- <-. exact B.
  - destruct (step c e1 o) as [[d1 r1]|] eqn:S1; [|discriminate]. destruct (step c e2 _) as [[d2 r2]|] eqn:S2 in H2; [|discriminate]. cbn [bind] in H1, H2.
    destruct (run c d1 ops) as [[k1 rs1]|] eqn:K1; [|discriminate]. destruct (run c d2 _) as [[k2 rs2]|] eqn:K2 in H2; [|discriminate].
    cbn in H1, H2. injection H1 as <- <-. injection H2 as <- <-. cbn [map] in A. injection A as A0 A.
    destruct (L o (or_introl eq_refl)) as [L1 L2].
    refine (IH d1 d2 k1 k2 rs1 rs2 (reach_step _ _ _ _ _ R1 S1) (reach_step _ _ _ _ _ R2 S2) _ (fun x I => L x (or_intror I)) K1 K2 A).
    pose proof (machine_step _ _ _ _ _ V R1 S1) as M1. pose proof (machine_step _ _ _ _ _ V R2 S2) as M2.
    pose proof (near_call c g _ _ o B (distinct_of _ _ V R1) (distinct_of _ _ V R2) L1 L2) as K.
    rewrite M1, M2 in K. cbn [fst snd] in K. apply K. exact A0.
Qed.

(** ** The order enters *)
Lemma ghost_enters c e sd p q uid e1 o : valid_config c -> reachable c e -> step c e (OpLimit sd p q uid) = Done (e1, Ok o) ->
  beside (ghost e sd p q uid) (machine_of e1) (machine_of e) /\ near (ghost e sd p q uid) (machine_of e1) (machine_of e).
Proof.
  intros V R S. pose proof (machine_step _ _ _ _ _ V R S) as M. cbn [m_call] in M. unfold m_limit in M. destruct (p <=? 0); [discriminate|]. destruct (q <=? 0); [discriminate|].
  unfold m_submit in M. destruct (quantity_fault _ _); [discriminate|]. destruct (price_fault _ _ _ _); [discriminate|]. destruct (_ <? _); [discriminate|].
  destruct (match sd with Buy => _ | Sell => _ end); [discriminate|]. destruct (c_max c <=? _); [discriminate|]. apply (f_equal fst) in M. cbn [fst] in M. rewrite <- M.
  assert (F : exists l, Permutation (ex_active e ++ [ghost e sd p q uid]) (ghost e sd p q uid :: l) /\ Permutation (ex_active e) (map (earlier_order (ex_next_id e)) l)).
  { exists (ex_active e). split; [symmetry; apply Permutation_cons_append|].
    assert (O : forall x, In x (ex_active e) -> earlier_order (ex_next_id e) x = x).
    { intros x I. pose proof (inv_ids _ _ (reachable_inv c e (vc_max _ V) R) x I) as K. destruct x. unfold earlier_order, earlier. cbn in *. destruct (Z.ltb_spec (ex_next_id e) lo_id); [lia|reflexivity]. }
    assert (Q : map (earlier_order (ex_next_id e)) (ex_active e) = ex_active e); [|rewrite Q; reflexivity]. rewrite <- (map_id (ex_active e)) at 2. apply map_ext_in. exact O. }
  split; constructor; try reflexivity; try exact F; cbn; lia.
Qed.
Lemma ghost_same c e sd p q uid e1 o ops f1 f2 o1 o2 : valid_config c -> reachable c e -> step c e (OpLimit sd p q uid) = Done (e1, Ok o) ->
  (forall x, In x ops -> leaves_alone (ex_next_id e) x /\ misses (ghost e sd p q uid) x) -> one_by_one c e1 ops ->
  run c e1 ops = Done (f1, o1) -> run c e (map (earlier_op (ex_next_id e)) ops) = Done (f2, o2) -> map accepted o1 = map accepted o2 ->
  statement_of f1 = statement_of f2 /\ position_margin_of f1 = position_margin_of f2 /\ wallet_of f1 + order_margin_of f1 = wallet_of f2 + order_margin_of f2 /\
  exists l, Permutation (ex_active f1) (ghost e sd p q uid :: l) /\ Permutation (ex_active f2) (map (earlier_order (ex_next_id e)) l).
Proof.
  intros V R S L O H1 H2 A. destruct (ghost_enters c e sd p q uid e1 o V R S) as [B _].
  pose proof (beside_run c (ghost e sd p q uid) ops V e1 e f1 f2 o1 o2 (reach_step _ _ _ _ _ R S) R B L O H1 H2 A) as [K1 K2 _ _ _ _ _ K3].
  cbn [machine_of m_book m_held m_orders] in K1, K2, K3. split; [exact K1|]. split; [exact K2|]. split; [|exact K3].
  rewrite <- !machine_wallet. unfold m_free. cbn [machine_of m_book m_held m_reserved]. rewrite K1, K2. lia.
Qed.
Lemma ghost_quantities c e sd p q uid e1 o ops f1 f2 o1 o2 : valid_config c -> reachable c e -> step c e (OpLimit sd p q uid) = Done (e1, Ok o) ->
  (forall x, In x ops -> leaves_alone (ex_next_id e) x /\ misses (ghost e sd p q uid) x) ->
  run c e1 ops = Done (f1, o1) -> run c e (map (earlier_op (ex_next_id e)) ops) = Done (f2, o2) -> map accepted o1 = map accepted o2 ->
  position_quantity (ex_pos f1) = position_quantity (ex_pos f2) /\
  exists l, Permutation (ex_active f1) (ghost e sd p q uid :: l) /\ Permutation (ex_active f2) (map (earlier_order (ex_next_id e)) l).
Proof.
  intros V R S L H1 H2 A. destruct (ghost_enters c e sd p q uid e1 o V R S) as [_ B].
  pose proof (near_run c (ghost e sd p q uid) ops V e1 e f1 f2 o1 o2 (reach_step _ _ _ _ _ R S) R B L H1 H2 A) as [K1 _ _ _ _ _ K3]. split; [exact K1 | exact K3].
Qed.
