(** Trades one by one, in any order, or as a candle: the same orders are left and the position changes alike. *)
From Coq Require Import Permutation.
From Verif Require Import ProofBase BookLemmas StepLemmas FillLemmas OpLemmas Inv Spec SpecBook SpecConfig SpecMarket SpecEntry SpecSplit
  BookProof OrderProof SoundProof LedgerProof MarketProof LiqProof HealthProof Scenario ScenarioPanic TotalProof.

Lemma reported_id s o q t : update_id (reported_as s o q t) = lo_id o.
Proof. unfold reported_as. destruct (q =? lo_rem o); reflexivity. Qed.

Lemma find_report s ru book : NoDup (ids book) -> forall o, In o book ->
  find (fun u => update_id u =? lo_id o) (reports s ru book) =
  match touched ru o with Some q => Some (reported_as s o q (time_of ru)) | None => None end.
Proof.
  induction book as [|a book IH]; intros N o Ho; [contradiction|]. inversion N as [|? ? Hx Hb]; subst.
  unfold reports. cbn [flat_map]. fold (reports s ru book).
  assert (F : forall x, find (fun u => update_id u =? x) (reports s ru book) <> None -> In x (ids book)).
  { intros x Hf. destruct (find _ _) as [u|] eqn:E; [|contradiction]. apply find_some in E as [E1 E2].
    unfold reports in E1. apply in_flat_map in E1 as (y & Hy & E1). destruct (touched ru y); [|contradiction].
    destruct E1 as [<-|[]]. rewrite reported_id in E2. apply Z.eqb_eq in E2. rewrite <- E2. apply in_map; exact Hy. }
  destruct Ho as [->|Ho].
  - destruct (touched ru o) as [q|]; cbn [app find].
    + rewrite reported_id, Z.eqb_refl. reflexivity.
    + destruct (find _ _) eqn:E; [|reflexivity]. exfalso. apply Hx, F. rewrite E. discriminate.
  - assert (lo_id a <> lo_id o) by (intros E; apply Hx; unfold ids in *; rewrite E; apply in_map; exact Ho).
    destruct (touched ru a) as [q|]; cbn [app find]; [|apply IH; assumption].
    rewrite reported_id. destruct (Z.eqb_spec (lo_id a) (lo_id o)); [contradiction|]. apply IH; assumption.
Qed.

Definition rest_of (ru : raw_update) (o : limit_order) : list (Z * side * Z * Z) :=
  match touched ru o with
  | None => [stub o]
  | Some q => if q =? lo_rem o then [] else [(lo_id o, lo_side o, lo_price o, lo_rem o - q)]
  end.

Lemma apply_rest s ru book : NoDup (ids book) ->
  map stub (apply_updates (reports s ru book) book) = flat_map (rest_of ru) book.
Proof.
  intros N. unfold apply_updates. assert (H : forall l, (forall o, In o l -> In o book) ->
    map stub (flat_map (apply_update (reports s ru book)) l) = flat_map (rest_of ru) l).
  { induction l as [|a l IH]; intros Hs; [reflexivity|]. cbn [flat_map]. rewrite map_app, IH by (intros; apply Hs; right; assumption).
    f_equal. unfold apply_update. rewrite (find_report _ _ _ N) by (apply Hs; left; reflexivity).
    unfold rest_of. destruct (touched ru a) as [q|]; [|reflexivity]. unfold reported_as.
    destruct (q =? lo_rem a); reflexivity. }
  apply H. auto.
Qed.

(** The update takes from each order what the trades take. *)
Definition acts_as (ru : raw_update) (l : list trade) : Prop :=
  forall o, 0 < lo_rem o -> rest_of ru o = (if takes l o =? lo_rem o then [] else [(lo_id o, lo_side o, lo_price o, lo_rem o - takes l o)]) /\
    match touched ru o with Some q => q | None => 0 end = takes l o.

Lemma acts_gen ru l :
  (forall o, 0 < lo_rem o -> touched ru o = if existsb (crosses o) l then Some (takes l o) else None) -> acts_as ru l.
Proof.
  intros H o R. unfold rest_of. rewrite H by exact R. destruct (existsb (crosses o) l) eqn:E; [split; reflexivity|].
  unfold takes. rewrite (crossing_none _ _ E), Z.min_l by lia. split; [|reflexivity].
  destruct (Z.eqb_spec 0 (lo_rem o)); [lia|]. rewrite Z.sub_0_r. reflexivity.
Qed.

Lemma acts_trade t : acts_as (RTrade t) [t].
Proof.
  apply acts_gen. intros o R. unfold takes, crossing_qty, sumZ. cbn [touched existsb filter]. destruct (crosses o t); [|reflexivity].
  cbn [orb map fold_right]. rewrite Z.add_0_r. reflexivity.
Qed.
Lemma acts_candle l b f : acts_as (RSmart l b f) l.
Proof. apply acts_gen. reflexivity. Qed.

Lemma fold_qty k s fs : forall l, l_qty (fold_left (apply_fill k s) fs l) = l_qty l + net fs.
Proof.
  induction fs as [|f fs IH]; intros l; cbn [fold_left net fold_right]; [lia|]. fold (net fs). rewrite IH.
  enough (l_qty (apply_fill k s l f) = l_qty l + signed_qty f) by lia. unfold apply_fill.
  destruct (Z.eqb_spec (l_qty l) 0); [cbn; lia|]. destruct (_ =? _); reflexivity.
Qed.

Lemma rem_pos c e o : valid_config c -> reachable c e -> In o (ex_active e) -> 0 < lo_rem o.
Proof. intros V R H. pose proof (inv_ok _ _ (reachable_inv _ _ (vc_max _ V) R) o H) as K. unfold order_ok in K. tauto. Qed.

Lemma one_update c e ru l e' us :
  valid_config c -> reachable c e -> acts_as ru l -> step c e (OpUpdate ru) = Done (e', Ok (OutUpdates us)) ->
  Permutation (map stub (ex_active e')) (leftover l (ex_active e)) /\
  position_quantity (ex_pos e') = position_quantity (ex_pos e) + moved l (ex_active e).
Proof.
  intros V R A H. pose proof (update_exact _ _ _ _ _ V R H) as (-> & P & S & _). split.
  - rewrite P, apply_rest by apply (inv_nodup _ _ (reachable_inv _ _ (vc_max _ V) R)).
    assert (G : forall bk, (forall o, In o bk -> 0 < lo_rem o) -> flat_map (rest_of ru) bk = leftover l bk).
    { induction bk as [|a bk IH]; intros Hr; [reflexivity|]. unfold leftover. cbn [flat_map]. fold (leftover l bk).
      destruct (A a) as [A1 _]; [apply Hr; left; reflexivity|]. rewrite A1, IH by (intros; apply Hr; right; assumption). reflexivity. }
    rewrite G by (intros; eapply rem_pos; eauto). reflexivity.
  - apply (f_equal l_qty) in S. rewrite fold_qty in S. cbn [statement_of l_qty] in S. rewrite S. f_equal.
    unfold caused, moved. assert (G : forall o, In o (ex_active e) -> 0 < lo_rem o) by (intros; eapply rem_pos; eauto). revert G. clear S P H.
    induction (ex_active e) as [|a bk IH]; intros Hr; [reflexivity|]. cbn [flat_map map]. rewrite net_app. unfold sumZ. cbn [fold_right].
    fold (sumZ (map (fun o => signed_by (lo_side o) (takes l o)) bk)). rewrite IH by (intros; apply Hr; right; assumption). f_equal.
    destruct (A a) as [_ A2]; [apply Hr; left; reflexivity|]. rewrite <- A2.
    destruct (touched ru a); unfold net, signed_qty, signed_by; cbn [fold_right f_side f_qty]; destruct (lo_side a); lia.
Qed.

(** Stubs carry all that matters. *)
Definition of_stub (x : Z * side * Z * Z) : limit_order :=
  let '(i, sd, p, r) := x in
  {| lo_uid := 0; lo_side := sd; lo_price := p; lo_rem := r; lo_id := i; lo_ts := 0; lo_filled := Unfilled |}.
Lemma takes_stub l o : takes l (of_stub (stub o)) = takes l o.
Proof. destruct o; reflexivity. Qed.
Lemma leftover_stub l bk : leftover l (map of_stub (map stub bk)) = leftover l bk.
Proof.
  unfold leftover. induction bk as [|a bk IH]; [reflexivity|]. cbn [map flat_map]. rewrite IH, takes_stub. destruct a; reflexivity.
Qed.
Lemma moved_stub l bk : moved l (map of_stub (map stub bk)) = moved l bk.
Proof.
  unfold moved, sumZ. induction bk as [|a bk IH]; [reflexivity|]. cbn [map fold_right]. rewrite IH, takes_stub. destruct a; reflexivity.
Qed.
Lemma leftover_perm l a b : Permutation (map stub a) (map stub b) -> Permutation (leftover l a) (leftover l b).
Proof.
  intros H. rewrite <- (leftover_stub l a), <- (leftover_stub l b). unfold leftover. apply Permutation_flat_map, Permutation_map, H.
Qed.
Lemma moved_perm l a b : Permutation (map stub a) (map stub b) -> moved l a = moved l b.
Proof.
  intros H. rewrite <- (moved_stub l a), <- (moved_stub l b). unfold moved. apply (Permutation_map of_stub) in H. revert H.
  generalize (map of_stub (map stub a)) (map of_stub (map stub b)). unfold sumZ. clear.
  induction 1; cbn [map fold_right]; try lia.
Qed.

(** One trade, then the rest. *)
Lemma crossing_cons o t l : crossing_qty o (t :: l) = crossing_qty o [t] + crossing_qty o l.
Proof. unfold crossing_qty, sumZ. cbn [filter]. destruct (crosses o t); cbn; lia. Qed.
Lemma crossing_nonneg o l : (forall t, In t l -> 0 < tr_qty t) -> 0 <= crossing_qty o l.
Proof.
  intros H. unfold crossing_qty, sumZ. induction l as [|t l IH]; cbn; [lia|]. pose proof (H t (or_introl eq_refl)).
  assert (forall u, In u l -> 0 < tr_qty u) by (intros; apply H; right; assumption). specialize (IH H1).
  destruct (crosses o t); cbn; lia.
Qed.

Definition split_book (l1 l2 : list trade) (bk : list limit_order) : Prop :=
  leftover l2 (map of_stub (leftover l1 bk)) = leftover (l1 ++ l2) bk /\
  moved (l1 ++ l2) bk = moved l1 bk + moved l2 (map of_stub (leftover l1 bk)).

Lemma leftover_cons t l bk :
  0 < tr_qty t -> (forall u, In u l -> 0 < tr_qty u) -> (forall o, In o bk -> 0 < lo_rem o) ->
  leftover l (map of_stub (leftover [t] bk)) = leftover (t :: l) bk /\
  moved (t :: l) bk = moved [t] bk + moved l (map of_stub (leftover [t] bk)).
Proof.
  intros Ht Hl Hb. induction bk as [|a bk IH]; [split; reflexivity|].
  destruct IH as [IH1 IH2]; [intros; apply Hb; right; assumption|].
  assert (Ha : 0 < lo_rem a) by (apply Hb; left; reflexivity).
  assert (Hc : 0 <= crossing_qty a [t]) by (apply crossing_nonneg; intros u [<-|[]]; exact Ht).
  pose proof (crossing_nonneg a l Hl) as Hd.
  assert (L : forall m, leftover m (a :: bk) = (if takes m a =? lo_rem a then [] else [(lo_id a, lo_side a, lo_price a, lo_rem a - takes m a)]) ++ leftover m bk) by reflexivity.
  assert (M : forall m, moved m (a :: bk) = signed_by (lo_side a) (takes m a) + moved m bk) by reflexivity.
  assert (La : forall m x y, leftover m (x ++ y) = leftover m x ++ leftover m y) by (intros; unfold leftover; apply flat_map_app).
  assert (Ma : forall m x y, moved m (x ++ y) = moved m x + moved m y).
  { intros m x y. unfold moved, sumZ. rewrite map_app, fold_right_app. induction (map (fun o => signed_by (lo_side o) (takes m o)) x) as [|z zs IHz]; cbn [fold_right]; lia. }
  rewrite !L, !M, map_app, La, Ma, IH1, IH2. clear L M La Ma IH1 IH2.
  unfold takes. rewrite !(crossing_cons a t l).
  destruct (Z.eqb_spec (Z.min (crossing_qty a [t]) (lo_rem a)) (lo_rem a)) as [E|E].
  - destruct (Z.eqb_spec (Z.min (crossing_qty a [t] + crossing_qty a l) (lo_rem a)) (lo_rem a)) as [F|F]; [|lia].
    split; [reflexivity|]. cbn [map]. change (moved l []) with 0. rewrite E, F. lia.
  - assert (X : crossing_qty (of_stub (lo_id a, lo_side a, lo_price a, lo_rem a - Z.min (crossing_qty a [t]) (lo_rem a))) l = crossing_qty a l) by reflexivity.
    cbn [map]. set (o' := of_stub _) in *. set (mv := moved l (map of_stub (leftover [t] bk))). set (lo := leftover (t :: l) bk). set (mt := moved [t] bk).
    unfold leftover, moved, sumZ, takes. cbn [map flat_map fold_right]. rewrite X. unfold o'. cbn [of_stub lo_rem lo_id lo_side lo_price].
    rewrite !(Z.min_l (crossing_qty a [t]) (lo_rem a)) by lia. rewrite app_nil_r, Z.add_0_r.
    destruct (Z.eqb_spec (Z.min (crossing_qty a l) (lo_rem a - crossing_qty a [t])) (lo_rem a - crossing_qty a [t])) as [F|F];
      destruct (Z.eqb_spec (Z.min (crossing_qty a [t] + crossing_qty a l) (lo_rem a)) (lo_rem a)) as [G|G]; try lia.
    + split; [reflexivity|]. unfold signed_by. destruct (lo_side a); lia.
    + split; [|unfold signed_by; destruct (lo_side a); lia]. f_equal. f_equal. f_equal. lia.
Qed.

Lemma leftover_nil bk : (forall o, In o bk -> 0 < lo_rem o) -> leftover [] bk = map stub bk /\ moved [] bk = 0.
Proof.
  intros H. induction bk as [|a bk IH]; [split; reflexivity|]. destruct IH as [I1 I2]; [intros; apply H; right; assumption|].
  assert (Ha : 0 < lo_rem a) by (apply H; left; reflexivity). unfold leftover, moved, sumZ in *. cbn [flat_map map fold_right] in *.
  rewrite I1, I2. unfold takes. assert (E : crossing_qty a [] = 0) by reflexivity. rewrite E, Z.min_l by lia.
  destruct (Z.eqb_spec 0 (lo_rem a)); [lia|]. rewrite Z.sub_0_r. split; [reflexivity|]. unfold signed_by. destruct (lo_side a); lia.
Qed.

Lemma trades_split c l : forall e e' outs,
  valid_config c -> reachable c e -> (forall t, In t l -> 0 < tr_qty t) -> run c e (trade_ops l) = Done (e', outs) -> all_accepted outs ->
  Permutation (map stub (ex_active e')) (leftover l (ex_active e)) /\
  position_quantity (ex_pos e') = position_quantity (ex_pos e) + moved l (ex_active e).
Proof.
  induction l as [|t l IH]; intros e e' outs V R P H A.
  - cbn in H. injection H as <- <-. destruct (leftover_nil (ex_active e)) as [-> ->]; [intros; eapply rem_pos; eauto|]. split; [reflexivity|lia].
  - change (trade_ops (t :: l)) with ([OpUpdate (RTrade t)] ++ trade_ops l) in H. apply run_app in H as (e1 & o1 & o2 & H1 & H2 & ->).
    apply run_single in H1 as (r & H1 & ->). destruct (A r) as [us ->]; [left; reflexivity|].
    destruct (one_update _ _ _ _ _ _ V R (acts_trade t) H1) as [B1 B2].
    destruct (IH _ _ _ V (reach_step _ _ _ _ _ R H1) (fun u Hu => P u (or_intror Hu)) H2 (fun r Hr => A r (or_intror Hr))) as [C1 C2].
    destruct (leftover_cons t l (ex_active e)) as [D1 D2]; [apply P; left; reflexivity | intros; apply P; right; assumption | intros; eapply rem_pos; eauto |].
    assert (Q : Permutation (map stub (ex_active e1)) (map stub (map of_stub (leftover [t] (ex_active e))))).
    { rewrite map_map, (map_ext _ (fun x => x)), map_id; [exact B1|]. intros [[[? ?] ?] ?]; reflexivity. }
    split.
    + rewrite C1, <- D1. apply leftover_perm. exact Q.
    + rewrite C2, B2, D2, (moved_perm _ _ _ Q). lia.
Qed.

Lemma candle_split c e l b f e' us :
  valid_config c -> reachable c e -> step c e (OpUpdate (RSmart l b f)) = Done (e', Ok (OutUpdates us)) ->
  Permutation (map stub (ex_active e')) (leftover l (ex_active e)) /\
  position_quantity (ex_pos e') = position_quantity (ex_pos e) + moved l (ex_active e).
Proof. intros V R H. exact (one_update _ _ _ _ _ _ V R (acts_candle l b f) H). Qed.

Lemma leftover_order l l' bk : Permutation l l' -> leftover l bk = leftover l' bk /\ moved l bk = moved l' bk.
Proof.
  intros P. unfold leftover, moved, sumZ. induction bk as [|a bk [I1 I2]]; [split; reflexivity|]. cbn [flat_map map fold_right].
  rewrite I1, I2. unfold takes. rewrite (crossing_perm a l l' P). split; reflexivity.
Qed.

Lemma trades_agree c e l l' ea outsa eb outsb :
  valid_config c -> reachable c e -> (forall t, In t l -> 0 < tr_qty t) ->
  (forall o, crossing_qty o l = crossing_qty o l') -> (forall t, In t l' -> 0 < tr_qty t) ->
  run c e (trade_ops l) = Done (ea, outsa) -> all_accepted outsa ->
  run c e (trade_ops l') = Done (eb, outsb) -> all_accepted outsb ->
  Permutation (map stub (ex_active ea)) (map stub (ex_active eb)) /\ position_quantity (ex_pos ea) = position_quantity (ex_pos eb).
Proof.
  intros V R P E P' Ha Aa Hb Ab. destruct (trades_split _ _ _ _ _ V R P Ha Aa) as [A1 A2]. destruct (trades_split _ _ _ _ _ V R P' Hb Ab) as [B1 B2].
  assert (X : forall bk, leftover l bk = leftover l' bk /\ moved l bk = moved l' bk).
  { unfold leftover, moved, sumZ. induction bk as [|a bk [I1 I2]]; [split; reflexivity|]. cbn [flat_map map fold_right].
    rewrite I1, I2. unfold takes. rewrite E. split; reflexivity. }
  destruct (X (ex_active e)) as [X1 X2]. rewrite A1, B1, X1, A2, B2, X2. split; reflexivity.
Qed.

Lemma crossing_split o t1 t2 t l1 l2 :
  tr_side t1 = tr_side t -> tr_side t2 = tr_side t -> tr_price t1 = tr_price t -> tr_price t2 = tr_price t ->
  tr_qty t1 + tr_qty t2 = tr_qty t ->
  crossing_qty o (l1 ++ t1 :: t2 :: l2) = crossing_qty o (l1 ++ t :: l2).
Proof.
  intros S1 S2 P1 P2 Q. unfold crossing_qty, sumZ. rewrite !filter_app, !map_app, !fold_right_app. f_equal. cbn [filter].
  assert (crosses o t1 = crosses o t) as -> by (unfold crosses; rewrite S1, P1; reflexivity).
  assert (crosses o t2 = crosses o t) as -> by (unfold crosses; rewrite S2, P2; reflexivity).
  destruct (crosses o t); cbn [map fold_right]; lia.
Qed.

Lemma trades_reordered c e l l' ea outsa eb outsb :
  valid_config c -> reachable c e -> (forall t, In t l -> 0 < tr_qty t) -> Permutation l l' ->
  run c e (trade_ops l) = Done (ea, outsa) -> all_accepted outsa ->
  run c e (trade_ops l') = Done (eb, outsb) -> all_accepted outsb ->
  Permutation (map stub (ex_active ea)) (map stub (ex_active eb)) /\ position_quantity (ex_pos ea) = position_quantity (ex_pos eb).
Proof.
  intros V R P E. eapply trades_agree; try eassumption; [intros o; apply crossing_perm; exact E|].
  intros t Ht. apply P. eapply Permutation_in; [apply Permutation_sym; exact E | exact Ht].
Qed.

Lemma trades_divided c e l1 l2 t t1 t2 ea outsa eb outsb :
  valid_config c -> reachable c e ->
  tr_side t1 = tr_side t -> tr_side t2 = tr_side t -> tr_price t1 = tr_price t -> tr_price t2 = tr_price t ->
  tr_qty t1 + tr_qty t2 = tr_qty t -> (forall u, In u (l1 ++ t1 :: t2 :: l2) -> 0 < tr_qty u) ->
  run c e (trade_ops (l1 ++ t1 :: t2 :: l2)) = Done (ea, outsa) -> all_accepted outsa ->
  run c e (trade_ops (l1 ++ t :: l2)) = Done (eb, outsb) -> all_accepted outsb ->
  Permutation (map stub (ex_active ea)) (map stub (ex_active eb)) /\ position_quantity (ex_pos ea) = position_quantity (ex_pos eb).
Proof.
  intros V R S1 S2 P1 P2 Q P. eapply trades_agree; try eassumption; [intros o; apply crossing_split; assumption|].
  intros u Hu. apply in_app_or in Hu as [Hu|[<-|Hu]].
  - apply P, in_or_app. left; exact Hu.
  - pose proof (P t1 ltac:(apply in_or_app; right; left; reflexivity)). pose proof (P t2 ltac:(apply in_or_app; right; right; left; reflexivity)). lia.
  - apply P, in_or_app. right; right; right; exact Hu.
Qed.

Lemma candle_as_trades c e l l' b f ea us eb outs :
  valid_config c -> reachable c e -> (forall t, In t l -> 0 < tr_qty t) -> Permutation l l' ->
  step c e (OpUpdate (RSmart l b f)) = Done (ea, Ok (OutUpdates us)) ->
  run c e (trade_ops l') = Done (eb, outs) -> all_accepted outs ->
  Permutation (map stub (ex_active ea)) (map stub (ex_active eb)) /\ position_quantity (ex_pos ea) = position_quantity (ex_pos eb).
Proof.
  intros V R P E H1 H2 A. destruct (candle_split _ _ _ _ _ _ _ V R H1) as [A1 A2].
  destruct (trades_split _ _ _ _ _ V R (fun t Ht => P t (Permutation_in t (Permutation_sym E) Ht)) H2 A) as [B1 B2].
  destruct (leftover_order l l' (ex_active e) E) as [X1 X2]. rewrite A1, B1, X1, A2, B2, X2. split; reflexivity.
Qed.
