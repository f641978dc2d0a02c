(** What no accounting can break. *)
From Verif Require Import Base Types Filters Accounting Currency Position OrderBook OrderMargin
  Risk MarketUpdate Tracker Exchange Spec SpecConfig SpecMargin ProofBase BookLemmas FillLemmas Ledger SpecLedger MockProof.
From Coq Require Import Permutation.

Section Books.
Context {A : Type} (L : accounting A).
Variable c : config.

Lemma any_new q p f a a' i : a_inner_new L c q p f a = Done (a', i) -> 0 < q /\ pi_qty i = q.
Proof.
  intros H. unfold a_inner_new in H. apply lift_bind in H as (? & H1 & H). apply lift_bind in H as (? & H2 & H).
  apply lift_bind in H as (v & H3 & H). apply abind_done in H as (? & ? & _ & H). injection H as <- <-. apply assert_done in H1.
  split; [lia | reflexivity].
Qed.
Lemma any_increase i q p f a a' i' : a_increase_contracts L c i q p f a = Done (a', i') -> 0 < q /\ pi_qty i' = pi_qty i + q.
Proof.
  intros H. unfold a_increase_contracts in H. apply lift_bind in H as (? & H1 & H). apply lift_bind in H as (? & H2 & H).
  apply lift_bind in H as (v & H3 & H). apply lift_bind in H as (? & _ & H). apply abind_done in H as (? & ? & _ & H).
  injection H as <- <-. apply assert_done in H1. split; [lia | reflexivity].
Qed.
Lemma any_decrease i q p l f a a' i' : a_decrease_contracts L c i q p l f a = Done (a', i') -> 0 < q /\ pi_qty i' = pi_qty i - q.
Proof.
  intros H. unfold a_decrease_contracts in H. apply lift_bind in H as (? & H1 & H). apply lift_bind in H as (? & H2 & H).
  cbv zeta in H. apply lift_bind in H as (? & _ & H). apply lift_bind in H as (? & _ & H). apply abind_done in H as (? & ? & _ & H).
  apply lift_bind in H as (? & _ & H). apply lift_bind in H as (? & _ & H). apply abind_done in H as (? & ? & _ & H).
  apply assert_done in H1. split; [lia|]. destruct (0 <? pi_fees i + f); [apply abind_done in H as (? & ? & _ & H)|]; injection H as <- <-; reflexivity.
Qed.
Lemma any_change pos q p sd f a a' pos' : sized pos -> a_change_position L c pos q p sd f a = Done (a', pos') ->
  sized pos' /\ position_quantity pos' = position_quantity pos + match sd with Buy => q | Sell => - q end.
Proof.
  intros P H. unfold a_change_position in H. apply lift_bind in H as (? & _ & H). destruct pos as [|i|i]; cbn in P.
  - apply abind_done in H as (? & ? & _ & H). apply abind_done in H as (? & j & H & K). apply any_new in H as [H E].
    destruct sd; injection K as <- <-; cbn; lia.
  - destruct sd.
    + apply abind_done in H as (? & j & H & K). apply any_increase in H as [H E]. injection K as <- <-. cbn. lia.
    + destruct (Z.compare_spec q (pi_qty i)) as [E0|E0|E0].
      * apply abind_done in H as (? & j & H & K). apply any_decrease in H as [H E]. apply abind_done in K as (? & ? & _ & K).
        injection K as <- <-. cbn. lia.
      * apply abind_done in H as (? & j & H & K). apply any_decrease in H as [H E]. injection K as <- <-. cbn. lia.
      * apply abind_done in H as (? & j & H & K). unfold a_flip in H. apply abind_done in H as (? & ? & _ & H). apply lift_bind in H as (? & _ & H).
        apply abind_done in H as (? & ? & _ & H). apply lift_bind in H as (? & _ & H). apply any_new in H as [H E]. injection K as <- <-. cbn. lia.
  - destruct sd.
    + destruct (Z.compare_spec q (pi_qty i)) as [E0|E0|E0].
      * apply abind_done in H as (? & j & H & K). apply any_decrease in H as [H E]. apply abind_done in K as (? & ? & _ & K).
        injection K as <- <-. cbn. lia.
      * apply abind_done in H as (? & j & H & K). apply any_decrease in H as [H E]. injection K as <- <-. cbn. lia.
      * apply abind_done in H as (? & j & H & K). unfold a_flip in H. apply abind_done in H as (? & ? & _ & H). apply lift_bind in H as (? & _ & H).
        apply abind_done in H as (? & ? & _ & H). apply lift_bind in H as (? & _ & H). apply any_new in H as [H E]. injection K as <- <-. cbn. lia.
    + apply abind_done in H as (? & j & H & K). apply any_increase in H as [H E]. injection K as <- <-. cbn. lia.
Qed.

Definition mine (e : exchange) : Prop :=
  ex_active e = ex_om e /\ NoDup (ids (ex_om e)) /\
  (forall o, In o (ex_om e) -> lo_id o < ex_next_id e /\ 0 < lo_rem o /\ 0 < lo_price o) /\
  Z.of_nat (length (ex_om e)) <= c_max c /\ sized (ex_pos e).
Lemma mine_in_order e : mine e <-> in_order c e.
Proof. unfold mine, in_order. split; intros (E & H); (split; [exact E|]); [rewrite E | rewrite <- E]; exact H. Qed.

Lemma any_market e m a b e' r : mine e -> a_submit_market L c e m a = Done (b, (e', r)) ->
  mine e' /\ ex_active e' = ex_active e /\ position_quantity (ex_pos e') = position_quantity (ex_pos e) +
    match r with Ok f => match fm_side f with Buy => fm_qty f | Sell => - fm_qty f end | Err _ => 0 end.
Proof.
  intros (E & N & G & Z & P) H. unfold a_submit_market in H. apply lift_bind in H as (v & _ & H).
  assert (J : mine (set_next_id (set_trk e (log_market_order_submission (ex_trk e))) (ex_next_id e + 1))).
  { refine (conj E (conj N (conj _ (conj Z P)))). intros o O. apply G in O. cbn. lia. }
  destruct v as [[]|err].
  2:{ injection H as <- <- <-. split; [exact (conj E (conj N (conj G (conj Z P)))) | cbn; split; [reflexivity|]; lia]. }
  apply abind_done in H as (? & [rp|err] & _ & H).
  2:{ injection H as <- <- <-. split; [exact J | cbn; split; [reflexivity|]; lia]. }
  apply abind_done in H as (? & [rw|err] & _ & H).
  2:{ injection H as <- <- <-. split; [exact J | cbn; split; [reflexivity|]; lia]. }
  apply lift_bind in H as (v & _ & H). destruct v as [[]|err].
  2:{ injection H as <- <- <-. split; [exact J | cbn; split; [reflexivity|]; lia]. }
  apply abind_done in H as (? & e3 & H & K). injection K as <- <- <-. unfold a_settle in H.
  apply lift_bind in H as (? & _ & H). apply lift_bind in H as (? & _ & H). apply lift_bind in H as (? & _ & H).
  apply abind_done in H as (? & pos & H & K). apply any_change in H as [S Q]; [|exact P]. apply lift_bind in K as (t & _ & K).
  injection K as <- <-. destruct J as (J1 & J2 & J3 & J4 & _). split; [exact (conj J1 (conj J2 (conj J3 (conj J4 S))))|].
  split; [reflexivity | exact Q].
Qed.
Lemma any_liquidate e a b e' : mine e -> a_liquidate L c e a = Done (b, e') -> mine e'.
Proof.
  intros J H. unfold a_liquidate in H. apply lift_bind in H as (o & _ & H). apply abind_done in H as (? & [e1 r] & H & K).
  apply any_market in H as [H _]; [|exact J]. destruct r; [injection K as <- <-; exact H | discriminate].
Qed.

(** ** Fills *)
Record moved (u : market_update) (e e' : exchange) (o : limit_order) (q : Z) : Prop := {
  mv_q : 0 < q <= lo_rem o;
  mv_om : if q =? lo_rem o then om_remove (ex_om e) (ByOrderId (lo_id o)) = Done (ex_om e')
          else om_update (c_max c) (ex_om e) (after_fill (c_scale c) o q) = Done (ex_om e', Ok tt);
  mv_next : ex_next_id e' = ex_next_id e;
  mv_pos : sized (ex_pos e) -> sized (ex_pos e')
}.
Lemma any_fill_one u e ids o a a' e' ids' o' :
  a_fill_one L c u e ids o a = Done (a', (e', ids', o')) ->
  exists f, limit_order_filled (c_dbg c) u o = Done f /\
  match f with
  | None => e' = e /\ ids' = ids /\ o' = o
  | Some q => moved u e e' o q /\ o' = after_fill (c_scale c) o q /\ ids' = ids ++ (if q =? lo_rem o then [lo_id o] else [])
  end.
Proof.
  intros H. unfold a_fill_one in H. apply lift_bind in H as (f & Hf & H). exists f. split; [exact Hf|]. destruct f as [q|].
  2:{ injection H as <- <- <- <-. auto. }
  apply lift_bind in H as (? & _ & H). apply abind_done in H as (? & old & _ & H). apply lift_bind in H as (? & _ & H).
  apply lift_bind in H as ([o1 filled] & F & H). apply order_fill_spec in F as (Q & -> & ->).
  apply lift_bind in H as ([e1 ids1] & E1 & H). apply lift_bind in H as (v & _ & H). apply abind_done in H as (? & pos & C & H).
  apply lift_bind in H as (t & _ & H). cbv zeta in H. apply lift_bind in H as (nom & _ & H). apply lift_bind in H as (? & _ & H).
  apply abind_done in H as (? & ? & _ & H). injection H as <- <- <- <-.
  assert (X : ex_pos e1 = ex_pos e /\ ex_next_id e1 = ex_next_id e /\ ids1 = ids ++ (if q =? lo_rem o then [lo_id o] else []) /\
    if q =? lo_rem o then om_remove (ex_om e) (ByOrderId (lo_id o)) = Done (ex_om e1)
    else om_update (c_max c) (ex_om e) (after_fill (c_scale c) o q) = Done (ex_om e1, Ok tt)).
  { destruct (q =? lo_rem o).
    - apply bind_done in E1 as (om' & O & E1). injection E1 as <- <-. repeat (split; [reflexivity|]). exact O.
    - apply bind_done in E1 as (? & _ & E1). apply bind_done in E1 as ([om' res] & O & E1). destruct res as [[]|]; [|discriminate].
      injection E1 as <- <-. rewrite app_nil_r. repeat (split; [reflexivity|]). exact O. }
  destruct X as (X1 & X2 & X3 & X4). split; [|split; [reflexivity | exact X3]]. constructor; [exact Q | exact X4 | exact X2 |].
  intros S. cbn. rewrite X1 in C. apply any_change in C as [C _]; [exact C | exact S].
Qed.
Inductive moves_on (u : market_update) : exchange -> list limit_order -> exchange -> Prop :=
| mo_nil e : moves_on u e [] e
| mo_none e o l e' : fillq c u o = None -> moves_on u e l e' -> moves_on u e (o :: l) e'
| mo_some e o q e1 l e' : fillq c u o = Some q -> moved u e e1 o q -> moves_on u e1 l e' -> moves_on u e (o :: l) e'.
Lemma any_fill_loop u todo : forall e ids a a' e' ids' todo',
  a_fill_loop L c u e ids todo a = Done (a', (e', ids', todo')) ->
  moves_on u e todo e' /\ todo' = map (refill c u) todo /\ ids' = ids ++ map lo_id (filter (fully c u) todo).
Proof.
  induction todo as [|o l IH]; intros e ids a a' e' ids' todo' H; cbn [a_fill_loop] in H.
  - injection H as <- <- <- <-. cbn. rewrite app_nil_r. repeat split. constructor.
  - apply abind_done in H as (a1 & [[e1 ids1] o1] & H1 & H).
    apply abind_done in H as (a2 & [[e2 ids2] l2] & H2 & H). injection H as <- <- <- <-.
    apply IH in H2 as (Hl & -> & ->). apply any_fill_one in H1 as [f [Hof Hcase]].
    assert (Hq : fillq c u o = f) by (unfold fillq; rewrite Hof; reflexivity).
    cbn [map filter]. rewrite (refill_eq c u o), (fully_eq c u o), Hq. destruct f as [q|].
    + destruct Hcase as (He & -> & ->). split; [econstructor; eassumption|].
      split; [reflexivity|]. rewrite <- app_assoc. f_equal. destruct (q =? lo_rem o); reflexivity.
    + destruct Hcase as (-> & -> & ->). split; [constructor; assumption|]. split; reflexivity.
Qed.
Lemma moves_book u e todo e' done_ l :
  moves_on u e todo e' -> NoDup (ids (done_ ++ todo)) -> (forall i, In i l -> In i (ids done_)) ->
  remove_executed l (done_ ++ todo) = Done (ex_om e) ->
  remove_executed (l ++ map lo_id (filter (fully c u) todo)) (done_ ++ map (refill c u) todo) = Done (ex_om e').
Proof.
  intros H. revert done_ l. induction H as [e|e o t e' Hq Hl IH|e o q e1 t e' Hq He Hl IH]; intros d l Hn Hin Hr.
  - cbn. rewrite !app_nil_r. rewrite app_nil_r in Hr. exact Hr.
  - cbn [map filter]. rewrite (refill_eq c u o), (fully_eq c u o), Hq.
    replace (d ++ o :: map (refill c u) t) with ((d ++ [o]) ++ map (refill c u) t) by (rewrite <- app_assoc; reflexivity).
    apply IH.
    + rewrite <- app_assoc; exact Hn.
    + intros i Hi. rewrite ids_app. apply in_or_app; left; auto.
    + rewrite <- app_assoc; exact Hr.
  - assert (Hno : NoDup (ids d ++ lo_id o :: ids t)) by (unfold ids in *; rewrite map_app in Hn; exact Hn).
    assert (Hod : ~ In (lo_id o) (ids d)).
    { apply NoDup_remove_2 in Hno. intros Hx; apply Hno, in_or_app; auto. }
    assert (Hot : ~ In (lo_id o) (ids t)).
    { apply NoDup_remove_2 in Hno. intros Hx; apply Hno, in_or_app; auto. }
    assert (Hol : ~ In (lo_id o) l) by auto.
    set (o' := after_fill (c_scale c) o q).
    assert (Hrep : map (upd (lo_id o) o') (d ++ o :: t) = d ++ o' :: t).
    { rewrite map_app. cbn [map]. rewrite !upd_notin by assumption. unfold upd. rewrite Z.eqb_refl. reflexivity. }
    assert (Hr' : remove_executed l (d ++ o' :: t) = Done (map (upd (lo_id o) o') (ex_om e))).
    { rewrite <- Hrep. apply remove_executed_upd; [reflexivity | exact Hr]. }
    pose proof (remove_executed_spec _ _ _ Hn Hr) as [HnOm HxOm].
    assert (Hoin : In o (ex_om e)).
    { apply HxOm. split; [apply in_or_app; right; left; reflexivity | exact Hol]. }
    assert (Hr1 : remove_executed (l ++ (if q =? lo_rem o then [lo_id o] else [])) (d ++ o' :: t) = Done (ex_om e1)).
    { pose proof (mv_om _ _ _ _ _ He) as Hom. destruct (q =? lo_rem o).
      - rewrite remove_executed_app, Hr'. cbn [bind remove_executed].
        apply om_remove_id_done in Hom as [x Hx].
        rewrite (remove_id_upd_same (ex_om e) (lo_id o) o' x (ex_om e1) HnOm eq_refl Hx). reflexivity.
      - rewrite app_nil_r, Hr'. f_equal.
        apply om_update_done in Hom as [_ [(Hg & _)|(old & Hg & -> & _)]].
        + exfalso. apply get_by_id_none in Hg. apply Hg. cbn. apply in_map; exact Hoin.
        + rewrite replace_by_id_map by exact HnOm. reflexivity. }
    cbn [map filter]. rewrite (refill_eq c u o), (fully_eq c u o), Hq. fold o'.
    replace (d ++ o' :: map (refill c u) t) with ((d ++ [o']) ++ map (refill c u) t) by (rewrite <- app_assoc; reflexivity).
    replace (l ++ map lo_id (if q =? lo_rem o then o :: filter (fully c u) t else filter (fully c u) t))
      with ((l ++ (if q =? lo_rem o then [lo_id o] else [])) ++ map lo_id (filter (fully c u) t))
      by (destruct (q =? lo_rem o); rewrite <- app_assoc; reflexivity).
    apply IH.
    + rewrite <- app_assoc. cbn [app]. unfold ids in *. rewrite map_app in *. cbn [map] in *. exact Hn.
    + intros i Hi. rewrite ids_app. apply in_app_or in Hi as [Hi|Hi]; apply in_or_app; [left; auto|].
      right. destruct (q =? lo_rem o); [exact Hi | contradiction].
    + rewrite <- app_assoc. exact Hr1.
Qed.
Lemma moves_rest u e l e' : moves_on u e l e' ->
  ex_next_id e' = ex_next_id e /\ (sized (ex_pos e) -> sized (ex_pos e')) /\
  (forall o, In o l -> 0 < lo_rem o -> 0 < lo_price o -> fully c u o = false -> 0 < lo_rem (refill c u o) /\ 0 < lo_price (refill c u o)).
Proof.
  induction 1 as [e|e o l e' Hn Hl (I1 & I2 & I3)|e o q e1 l e' Hq He Hl (I1 & I2 & I3)].
  - repeat split; auto; destruct H.
  - split; [exact I1|]. split; [exact I2|]. intros x [<-|X]; [|apply I3, X]. rewrite (refill_eq c u o), Hn. auto.
  - destruct He as [Q _ E P]. split; [congruence|]. split; [auto|]. intros x [<-|X]; [|apply I3, X].
    rewrite (refill_eq c u o), (fully_eq c u o), Hq. cbn. destruct (Z.eqb_spec q (lo_rem o)); [discriminate|]. lia.
Qed.

Lemma any_check e u a b e' : mine e -> a_check L c e u a = Done (b, e') -> mine e'.
Proof.
  intros J H. unfold a_check in H. destruct (negb (can_fill u)).
  { injection H as <- <-. exact J. }
  apply lift_bind in H as (? & _ & H). apply abind_done in H as (a1 & [[e1 ids1] arena] & H & K).
  apply any_fill_loop in H as (M & -> & ->). cbn [ex_active set_updates] in *.
  apply lift_bind in K as (act & R & K).
  apply lift_bind in K as (? & _ & K). apply abind_done in K as (? & ? & _ & K). apply abind_done in K as (? & ? & _ & K).
  apply abind_done in K as (? & ? & _ & K). injection K as <- <-. destruct J as (E & N & G & Z & P).
  pose proof (moves_book u _ _ _ [] [] M) as B. cbn [app remove_executed] in B. rewrite E in *. specialize (B N (fun _ X => X) eq_refl).
  cbn [app] in R. rewrite R in B. injection B as B.
  assert (Ids : ids (map (refill c u) (ex_om e)) = ids (ex_om e)).
  { unfold ids. rewrite map_map. apply map_ext. intros o. apply refill_id. }
  assert (N' : NoDup (ids (map (refill c u) (ex_om e)))) by (rewrite Ids; exact N).
  destruct (remove_executed_spec _ _ _ N' R) as [N2 X]. destruct (moves_rest _ _ _ _ M) as (M1 & M2 & M3).
  split; [exact B|]. cbn [ex_om set_active ex_next_id ex_pos]. rewrite <- B. split; [exact N2|]. split; [|split; [|apply M2, P]].
  - intros o O. apply X in O as [O F]. apply in_map_iff in O as (o0 & <- & O). destruct (G _ O) as (G1 & G2 & G3). rewrite refill_id in *.
    split; [rewrite M1; exact G1|]. apply M3; [exact O | exact G2 | exact G3 |]. destruct (fully c u o0) eqn:Fu; [|reflexivity]. exfalso. apply F.
    apply in_map. apply filter_In. auto.
  - apply remove_executed_length in R. rewrite !map_length in R. lia.
Qed.
Lemma any_update e u a b e' r : mine e -> a_update L c e u a = Done (b, (e', r)) -> mine e'.
Proof.
  intros J H. unfold a_update in H. apply lift_bind in H as (ms & _ & H).
  set (e1 := set_ms e ms) in *. set (e2 := set_trk e1 _) in *. cbv zeta in H.
  destruct (should_trigger (ex_trig e2) (update_ts u)) as [trig fire]. cbv beta iota in H.
  apply abind_done in H as (a1 & e4 & H & K).
  assert (J4 : mine e4).
  { destruct fire; [|injection H as <- <-; exact J]. apply abind_done in H as (? & ? & _ & H). injection H as <- <-. exact J. }
  destruct (check_maintenance_margin _ _ _ _) as [[]|err].
  - apply abind_done in K as (a2 & e5 & H5 & K). apply any_check in H5; [|exact J4]. injection K as <- <- <-. exact H5.
  - apply abind_done in K as (a2 & e5 & H5 & K). apply any_liquidate in H5; [|exact J4]. injection K as <- <- <-. exact H5.
Qed.

Hypothesis Cap : c_max c <= 10000.
Lemma any_append e o a b e' r : mine e -> 0 < lo_price o -> ~ In (lo_id o) (ids (ex_om e)) -> lo_id o < ex_next_id e ->
  a_append L c e o a = Done (b, (e', r)) -> mine e' /\ match r with Ok _ => ex_om e' = ex_om e ++ [o] | Err _ => e' = e end.
Proof.
  intros (E & N & G & Z & P) Pr F Lt H. unfold a_append in H. apply lift_bind in H as ([om' x] & U & H). destruct x as [[]|err].
  2:{ apply om_update_err in U as (-> & _). injection H as <- <- <-. split; [exact (conj E (conj N (conj G (conj Z P)))) | destruct e; reflexivity]. }
  apply om_update_done in U as (Rem & U). pose proof F as F'. apply get_by_id_none in F. destruct U as [(_ & -> & Len)|(old & Old & _)]; [|congruence].
  assert (Ins : book_insert active_capacity (ex_active (set_om e (ex_om e ++ [o]))) o = (ex_om e ++ [o], Ok None)).
  { cbn. rewrite E. unfold book_insert. rewrite F. destruct (Z.leb_spec active_capacity (Z.of_nat (length (ex_om e)))) as [C|C].
    - change active_capacity with 10000 in C. lia.
    - reflexivity. }
  rewrite Ins in H. cbv zeta in H.
  assert (J : mine (set_active (set_om e (ex_om e ++ [o])) (ex_om e ++ [o]))).
  { refine (conj eq_refl (conj _ (conj _ (conj _ P)))); cbn [ex_om set_active set_om ex_next_id].
    - rewrite ids_app. apply NoDup_app_single; assumption.
    - intros y Y. apply in_app_or in Y as [Y|[<-|[]]]; [apply G, Y | auto].
    - rewrite app_length. cbn. lia. }
  apply lift_bind in H as (nom & _ & H). apply abind_done in H as (? & om & _ & H).
  destruct (nom ?= om); [injection H as <- <- <-; split; [exact J | reflexivity]| |];
    (apply abind_done in H as (? & ? & _ & H); apply lift_bind in H as (? & _ & H); apply abind_done in H as (? & ? & _ & H);
     apply lift_bind in H as (? & _ & H); apply abind_done in H as (? & ? & _ & H); injection H as <- <- <-; split; [exact J | reflexivity]).
Qed.
Lemma any_limit e o a b e' r : mine e -> 0 < nl_price o -> a_submit_limit L c e o a = Done (b, (e', r)) -> mine e' /\ ex_pos e' = ex_pos e.
Proof.
  intros J Pr H. pose proof J as (E & N & G & Z & P). unfold a_submit_limit in H. apply lift_bind in H as (v & _ & H). destruct v as [[]|err].
  2:{ injection H as <- <- <-. split; [exact J | reflexivity]. }
  apply lift_bind in H as (v & _ & H). destruct v as [[]|err].
  2:{ injection H as <- <- <-. split; [exact J | reflexivity]. }
  set (order := limit_into_pending _ _ _) in *. set (e2 := set_next_id _ _) in *.
  assert (J2 : mine e2).
  { refine (conj E (conj N (conj _ (conj Z P)))). intros y Y. apply G in Y. cbn. lia. }
  apply abind_done in H as (? & [w|err] & _ & H).
  2:{ injection H as <- <- <-. split; [exact J2 | reflexivity]. }
  apply lift_bind in H as (v & C & H). destruct v as [[]|err].
  2:{ injection H as <- <- <-. split; [exact J2 | reflexivity]. }
  destruct (marketable (ex_ms e2) order).
  { injection H as <- <- <-. split; [exact J2 | reflexivity]. }
  apply abind_done in H as (a1 & [e3 fin] & H & K).
  assert (J3 : mine e3 /\ ex_pos e3 = ex_pos e).
  { assert (Fr : ~ In (lo_id order) (ids (ex_om e2))).
    { cbn. intros D. unfold ids in D. apply in_map_iff in D as (y & Ey & Y). apply G in Y. lia. }
    pose proof H as H'. apply (any_append e2 order) in H; [|exact J2|exact Pr|exact Fr|cbn; lia]. destruct H as [H _]. split; [exact H|].
    unfold a_append in H'. apply lift_bind in H' as ([om' res] & _ & H'). destruct res; [|injection H' as <- <- <-; reflexivity].
    destruct (book_insert _ _ _) as [act' [res|err]]; [|injection H' as <- <- <-; reflexivity].
    apply lift_bind in H' as (nom & _ & H'). apply abind_done in H' as (? & om & _ & H').
    destruct (nom ?= om); [injection H' as <- <- <-; reflexivity| |];
    (apply abind_done in H' as (? & ? & _ & H'); apply lift_bind in H' as (? & _ & H'); apply abind_done in H' as (? & ? & _ & H');
     apply lift_bind in H' as (? & _ & H'); apply abind_done in H' as (? & ? & _ & H'); injection H' as <- <- <-; reflexivity). }
  destruct fin; injection K as <- <- <-; exact J3.
Qed.
Lemma any_cancel e by_ a b e' r : mine e -> a_cancel L c e by_ a = Done (b, (e', r)) -> mine e' /\ ex_pos e' = ex_pos e.
Proof.
  intros J H. pose proof J as (E & N & G & Z & P). unfold a_cancel in H. apply abind_done in H as (w0 & old & _ & H).
  apply lift_bind in H as (w1 & _ & H). apply lift_bind in H as (w2 & _ & H).
  assert (Fin : forall o act', Permutation (ex_om e) (o :: act') ->
    forall t, mine (set_trk (set_om (set_active e act') act') t)).
  { intros o act' Q t. refine (conj eq_refl (conj _ (conj _ (conj _ P)))); cbn [ex_om set_trk set_om set_active ex_next_id].
    - assert (N' : NoDup (ids (o :: act'))) by (eapply Permutation_NoDup; [apply Permutation_map, Q | exact N]). inversion N'. assumption.
    - intros y Y. apply G. rewrite Q. right. exact Y.
    - apply Permutation_length in Q. cbn in Q. lia. }
  destruct by_ as [id|uid].
  - destruct (remove_by_order_id (ex_active e) id) as [[o act']|] eqn:Rm; [|injection H as <- <- <-; split; [exact J | reflexivity]].
    assert (Q : Permutation (ex_om e) (o :: act')) by (rewrite <- E; apply remove_by_spec in Rm; tauto).
    apply lift_bind in H as (om' & O & H).
    assert (om' = act') by (unfold om_remove in O; cbn [ex_om set_active] in O; rewrite E in Rm; rewrite Rm in O; injection O as <-; reflexivity).
    subst om'. apply lift_bind in H as (? & _ & H). apply lift_bind in H as (? & _ & H). apply abind_done in H as (? & ? & _ & H).
    apply lift_bind in H as (? & _ & H). apply abind_done in H as (? & ? & _ & H). apply lift_bind in H as (? & _ & H).
    injection H as <- <- <-. split; [exact (Fin o act' Q _) | reflexivity].
  - destruct (remove_by_user_order_id (ex_active e) uid) as [[o act']|] eqn:Rm; [|injection H as <- <- <-; split; [exact J | reflexivity]].
    assert (Q : Permutation (ex_om e) (o :: act')) by (rewrite <- E; apply remove_by_spec in Rm; tauto).
    apply lift_bind in H as (om' & O & H).
    assert (om' = act') by (unfold om_remove in O; cbn [ex_om set_active] in O; rewrite E in Rm; rewrite Rm in O; injection O as <-; reflexivity).
    subst om'. apply lift_bind in H as (? & _ & H). apply lift_bind in H as (? & _ & H). apply abind_done in H as (? & ? & _ & H).
    apply lift_bind in H as (? & _ & H). apply abind_done in H as (? & ? & _ & H). apply lift_bind in H as (? & _ & H).
    injection H as <- <- <-. split; [exact (Fin o act' Q _) | reflexivity].
Qed.
Lemma any_amend e id o a b e' r : mine e -> 0 < nl_price o -> a_amend L c e id o a = Done (b, (e', r)) -> mine e' /\ ex_pos e' = ex_pos e.
Proof.
  intros J Pr H. unfold a_amend in H. destruct (get_by_id (ex_active e) id) as [ex|].
  2:{ injection H as <- <- <-. split; [exact J | reflexivity]. }
  apply lift_bind in H as (tot & _ & H). destruct (_ <=? 0).
  - apply abind_done in H as (a1 & [e1 x] & H & K). apply any_cancel in H; [|exact J].
    destruct x; [injection K as <- <- <-; exact H | discriminate].
  - apply lift_bind in H as (o' & So & H). unfold set_remaining_quantity in So. apply bind_done in So as (w & Sa & So).
    injection So as <-.
    apply abind_done in H as (a1 & [e1 x] & H & K). apply any_cancel in H; [|exact J]. destruct H as [J1 P1].
    destruct x; [|injection K as <- <- <-; split; [exact J1 | exact P1]]. rewrite <- P1. eapply any_limit; [exact J1| |exact K]. exact Pr.
Qed.
Lemma any_step e o a b e' r : mine e -> a_step L c e o a = Done (b, (e', r)) -> mine e'.
Proof.
  intros J H. destruct o as [u|sd q uid|sd p q uid|by_|id sd p q uid|u]; cbn [a_step] in H.
  - apply lift_bind in H as (w & _ & H). apply abind_done in H as (a1 & [e1 x] & H & K). injection K as <- <- <-.
    eapply any_update; [exact J | exact H].
  - destruct (market_new sd q uid) as [m|err]; [|injection H as <- <- <-; exact J].
    apply abind_done in H as (a1 & [e1 x] & H & K). injection K as <- <- <-. eapply any_market; [exact J | exact H].
  - destruct (limit_new sd p q uid) as [m|err] eqn:Ln; [|injection H as <- <- <-; exact J].
    apply abind_done in H as (a1 & [e1 x] & H & K). injection K as <- <- <-. apply limit_new_pos in Ln as [Ln _].
    eapply any_limit; [exact J | exact Ln | exact H].
  - apply abind_done in H as (a1 & [e1 x] & H & K). injection K as <- <- <-. eapply any_cancel; [exact J | exact H].
  - destruct (limit_new sd p q uid) as [m|err] eqn:Ln; [|injection H as <- <- <-; exact J].
    apply abind_done in H as (a1 & [e1 x] & H & K). injection K as <- <- <-. apply limit_new_pos in Ln as [Ln _].
    eapply any_amend; [exact J | exact Ln | exact H].
  - apply lift_bind in H as (w & _ & H). apply abind_done in H as (a1 & e1 & H & K). injection K as <- <- <-.
    eapply any_check; [exact J | exact H].
Qed.
Lemma any_run ops : forall e a b e' rs, mine e -> a_run L c e ops a = Done (b, (e', rs)) -> mine e'.
Proof.
  induction ops as [|o ops IH]; intros e a b e' rs J H; cbn [a_run] in H.
  { injection H as <- <- <-. exact J. }
  apply abind_done in H as (a1 & [e1 x] & H & K). apply any_step in H; [|exact J].
  apply abind_done in K as (a2 & [e2 y] & H2 & K). apply IH in H2; [|exact H]. injection K as <- <- <-. exact H2.
Qed.
Lemma any_init a e : 0 <= c_max c -> a_init L c = Done (a, e) -> mine e.
Proof.
  intros Z H. unfold a_init in H. apply bind_done in H as (t & _ & H). apply bind_done in H as (a0 & _ & H). injection H as <- <-.
  refine (conj eq_refl (conj _ (conj _ (conj _ I)))); cbn; [constructor | intros ? [] | exact Z].
Qed.
Theorem any_in_order ops a e rs : 0 <= c_max c -> a_play L c ops = Done (a, (e, rs)) -> in_order c e.
Proof.
  intros Z H. unfold a_play in H. apply bind_done in H as ([a0 e0] & E & H). apply any_init in E; [|exact Z].
  apply mine_in_order. eapply any_run; [exact E | exact H].
Qed.
End Books.
