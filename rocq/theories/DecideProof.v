(** An accounting only decides whether a call goes through, not what it does. *)
From Verif Require Import Base Types Filters Accounting Currency Position OrderBook OrderMargin
  Risk MarketUpdate Tracker Exchange Spec SpecConfig SpecMargin ProofBase BookLemmas FillLemmas Ledger SpecLedger MockProof AnyBooksProof.

(** What the two submissions can do. *)
Section Shapes.
Context {A : Type} (L : accounting A) (c : config).
Lemma market_shape e m a b e' r : a_submit_market L c e m a = Done (b, (e', r)) ->
  let e1 := set_trk e (log_market_order_submission (ex_trk e)) in
  exists v, validate_order_quantity (ct_qf (c_spec c)) (nm_qty m) = Done v /\
  match v with
  | Err err => e' = e1 /\ okay r = false
  | Ok _ =>
      let e2 := set_next_id e1 (ex_next_id e1 + 1) in
      match r with
      | Err _ => e' = e2
      | Ok f =>
          f = market_into_filled m (ex_next_id e) (ms_ts (ex_ms e))
                (match nm_side m with Buy => ms_ask (ex_ms e) | Sell => ms_bid (ex_ms e) end) (ms_ts (ex_ms e)) /\
          exists a1 b1, a_settle L c e2 f a1 = Done (b1, e')
      end
  end.
Proof.
  intros H e1. unfold a_submit_market in H. apply lift_bind in H as (v & V & H). exists v. split; [exact V|]. destruct v as [[]|err].
  2:{ injection H as <- <- <-. split; reflexivity. }
  apply abind_done in H as (? & [rp|err] & _ & H); [|injection H as <- <- <-; reflexivity].
  apply abind_done in H as (? & [rw|err] & _ & H); [|injection H as <- <- <-; reflexivity].
  apply lift_bind in H as (v & _ & H). destruct v as [[]|err]; [|injection H as <- <- <-; reflexivity].
  apply abind_done in H as (? & e3 & H & K). injection K as <- <- <-. split; [reflexivity|]. eauto.
Qed.
Lemma limit_shape e o a b e' r : c_max c <= 10000 -> mine c e -> 0 < nl_price o -> a_submit_limit L c e o a = Done (b, (e', r)) ->
  let e1 := set_trk e (log_limit_order_submission (ex_trk e)) in
  let e2 := set_next_id e1 (ex_next_id e1 + 1) in
  let order := limit_into_pending o (ex_next_id e) (ms_ts (ex_ms e)) in
  exists v, validate_order_quantity (ct_qf (c_spec c)) (nl_rem o) = Done v /\
  match v with
  | Err err => e' = e1 /\ okay r = false
  | Ok _ =>
      exists w, validate_limit_price (c_scale c) (ct_pf (c_spec c)) (nl_price o) (mid_price (ex_ms e)) = Done w /\
      match w with
      | Err err => e' = e1 /\ okay r = false
      | Ok _ =>
          match r with
          | Err _ => e' = e2
          | Ok f => f = order /\ e' = set_active (set_om e2 (ex_om e ++ [order])) (ex_om e ++ [order])
          end
      end
  end.
Proof.
  intros Cap J Pr H e1 e2 order. pose proof J as (E & N & G & Z & P). unfold a_submit_limit in H.
  apply lift_bind in H as (v & V & H). exists v. split; [exact V|]. destruct v as [[]|err].
  2:{ injection H as <- <- <-. split; reflexivity. }
  apply lift_bind in H as (w & W & H). exists w. split; [exact W|]. destruct w as [[]|err].
  2:{ injection H as <- <- <-. split; reflexivity. }
  apply abind_done in H as (? & [rw|err] & _ & H); [|injection H as <- <- <-; reflexivity].
  apply lift_bind in H as (v & _ & H). destruct v as [[]|err]; [|injection H as <- <- <-; reflexivity].
  destruct (marketable _ _); [injection H as <- <- <-; reflexivity|].
  apply abind_done in H as (a1 & [e3 fin] & H & K).
  assert (J2 : mine c e2).
  { refine (conj E (conj N (conj _ (conj Z P)))). intros y Y. apply G in Y. cbn. lia. }
  assert (Fr : get_by_id (ex_om e) (ex_next_id e) = None).
  { apply get_by_id_none. intros D. unfold ids in D. apply in_map_iff in D as (y & Ey & Y). apply G in Y. lia. }
  change (set_next_id (set_trk e _) _) with e2 in H. change (limit_into_pending _ _ _) with order in H, K.
  unfold a_append in H. apply lift_bind in H as ([om' res] & U & H). destruct res as [[]|err].
  2:{ apply om_update_err in U as (-> & _). injection H as <- <- <-. injection K as <- <- <-. reflexivity. }
  apply om_update_done in U as (Rem & U). change (ex_om e2) with (ex_om e) in U. change (lo_id order) with (ex_next_id e) in U.
  destruct U as [(_ & -> & Len)|(old & Old & _)]; [|congruence].
  assert (Ins : book_insert active_capacity (ex_active (set_om e2 (ex_om e ++ [order]))) order = (ex_om e ++ [order], Ok None)).
  { cbn [ex_active set_om]. change (ex_active e2) with (ex_active e). rewrite E. unfold book_insert. change (lo_id order) with (ex_next_id e). rewrite Fr.
    destruct (Z.leb_spec active_capacity (Z.of_nat (length (ex_om e)))) as [C|C]; [|reflexivity]. change active_capacity with 10000 in C. lia. }
  rewrite Ins in H. cbv zeta in H. apply lift_bind in H as (nom & _ & H). apply abind_done in H as (? & om & _ & H).
  assert (X : e3 = set_active (set_om e2 (ex_om e ++ [order])) (ex_om e ++ [order]) /\ fin = Ok tt).
  { destruct (nom ?= om); [injection H as <- <- <-; split; reflexivity| |];
    (apply abind_done in H as (? & ? & _ & H); apply lift_bind in H as (? & _ & H); apply abind_done in H as (? & ? & _ & H);
     apply lift_bind in H as (? & _ & H); apply abind_done in H as (? & ? & _ & H); injection H as <- <- <-; split; reflexivity). }
  destruct X as [-> ->]. injection K as <- <- <-. split; reflexivity.
Qed.
End Shapes.

Section Two.
Context {A B : Type} (L : accounting A) (M : accounting B).
Variable c : config.

(** Whenever both return, what they return is related. *)
Definition both {X Y} (R : X -> Y -> Prop) (m : outcome (A * X)) (n : outcome (B * Y)) : Prop :=
  forall a x b y, m = Done (a, x) -> n = Done (b, y) -> R x y.
Lemma both_ret {X Y} (R : X -> Y -> Prop) x y a b : R x y -> both R (aret x a) (aret y b).
Proof. intros H a1 x1 b1 y1 E F. injection E as _ <-. injection F as _ <-. exact H. Qed.
Lemma both_bind {X Y X' Y'} (Q : X -> Y -> Prop) (R : X' -> Y' -> Prop) m n (k : X -> am X') (l : Y -> am Y') a b :
  both Q (m a) (n b) -> (forall a1 b1 x y, Q x y -> both R (k x a1) (l y b1)) -> both R (abind m k a) (abind n l b).
Proof.
  intros H K a2 x2 b2 y2 E F. apply abind_done in E as (a1 & x & E & E'). apply abind_done in F as (b1 & y & F & F').
  exact (K a1 b1 x y (H _ _ _ _ E F) _ _ _ _ E' F').
Qed.
Lemma both_any {X Y X' Y'} (R : X' -> Y' -> Prop) m n (k : X -> am X') (l : Y -> am Y') a b :
  (forall a1 b1 x y, both R (k x a1) (l y b1)) -> both R (abind m k a) (abind n l b).
Proof. intros K. apply (both_bind (fun _ _ => True)); [intros ? ? ? ? _ _; exact I | intros; apply K]. Qed.
Lemma both_lift {X X' Y'} (R : X' -> Y' -> Prop) (m : outcome X) (k : X -> am X') (l : X -> am Y') a b :
  (forall x, both R (k x a) (l x b)) -> both R (abind (alift m) k a) (abind (alift m) l b).
Proof.
  intros K a2 x2 b2 y2 E F. apply lift_bind in E as (x & E & E'). apply lift_bind in F as (y & F & F'). rewrite E in F. injection F as <-.
  exact (K x _ _ _ _ E' F').
Qed.

Lemma d_new q p f a b : both eq (a_inner_new L c q p f a) (a_inner_new M c q p f b).
Proof. apply both_lift; intros ?. apply both_lift; intros ?. apply both_lift; intros ?. apply both_any; intros a1 b1 ? ?. apply both_ret. reflexivity. Qed.
Lemma d_increase i q p f a b : both eq (a_increase_contracts L c i q p f a) (a_increase_contracts M c i q p f b).
Proof.
  apply both_lift; intros ?. apply both_lift; intros ?. apply both_lift; intros ?. apply both_lift; intros ?.
  apply both_any; intros a1 b1 ? ?. apply both_ret. reflexivity.
Qed.
Lemma d_decrease i q p l f a b : both eq (a_decrease_contracts L c i q p l f a) (a_decrease_contracts M c i q p l f b).
Proof.
  apply both_lift; intros ?. apply both_lift; intros ?. apply both_lift; intros ?. apply both_lift; intros ?.
  apply both_any; intros a1 b1 ? ?. apply both_lift; intros ?. apply both_lift; intros ?. apply both_any; intros a2 b2 ? ?.
  destruct (0 <? pi_fees i + f); [apply both_any; intros a3 b3 ? ?|]; apply both_ret; reflexivity.
Qed.
Lemma d_flip i q p l f a b : both eq (a_flip L c i q p l f a) (a_flip M c i q p l f b).
Proof.
  apply both_any; intros a1 b1 ? ?. apply both_any; intros a2 b2 ? ?. apply both_any; intros a3 b3 ? ?. apply both_any; intros a4 b4 ? ?. apply d_new.
Qed.
Lemma d_close i q p l f a b : both eq (a_close L c i q p l f a) (a_close M c i q p l f b).
Proof. apply both_any; intros a1 b1 ? ?. apply both_any; intros a2 b2 ? ?. apply both_ret. reflexivity. Qed.
Lemma d_change pos q p sd f a b : both eq (a_change_position L c pos q p sd f a) (a_change_position M c pos q p sd f b).
Proof.
  apply both_lift; intros ?. destruct pos as [|i|i].
  - apply both_any; intros a1 b1 ? ?. apply (both_bind eq); [apply d_new|]. intros a2 b2 i1 ? <-. destruct sd; apply both_ret; reflexivity.
  - destruct sd.
    + apply (both_bind eq); [apply d_increase|]. intros a2 b2 x1 y <-. apply both_ret; reflexivity.
    + destruct (q ?= pi_qty i).
      * apply d_close.
      * apply (both_bind eq); [apply d_decrease|]. intros a2 b2 x1 y <-. apply both_ret; reflexivity.
      * apply (both_bind eq); [apply d_flip|]. intros a2 b2 x1 y <-. apply both_ret; reflexivity.
  - destruct sd.
    + destruct (q ?= pi_qty i).
      * apply d_close.
      * apply (both_bind eq); [apply d_decrease|]. intros a2 b2 x1 y <-. apply both_ret; reflexivity.
      * apply (both_bind eq); [apply d_flip|]. intros a2 b2 x1 y <-. apply both_ret; reflexivity.
    + apply (both_bind eq); [apply d_increase|]. intros a2 b2 x1 y <-. apply both_ret; reflexivity.
Qed.

Definition fair {X} (p q : exchange * result error X) : Prop :=
  okay (snd p) = okay (snd q) -> like (fst p) (fst q) /\ match snd p, snd q with Ok x, Ok y => x = y | _, _ => True end.

Lemma d_settle e t o a b : both like (a_settle L c e o a) (a_settle M c (set_trk e t) o b).
Proof.
  apply both_lift; intros ?. apply both_lift; intros ?. apply both_lift; intros v. apply (both_bind eq); [apply d_change|].
  intros a1 b1 pos ? <-. apply both_any; intros a2 b2 t1 t2. apply both_ret. exists t2. reflexivity.
Qed.
Lemma d_market e t o a b : both fair (a_submit_market L c e o a) (a_submit_market M c (set_trk e t) o b).
Proof.
  intros a1 [e1 r1] b1 [e2 r2] E F. apply market_shape in E as (v & V & E). apply market_shape in F as (v' & V' & F).
  rewrite V in V'. injection V' as <-. intros O. cbn [fst snd] in *. destruct v as [[]|err].
  2:{ destruct E as [-> E], F as [-> F]. destruct r1, r2; try discriminate. split; [eexists; reflexivity | exact I]. }
  destruct r1 as [f|err], r2 as [f'|err']; try discriminate.
  2:{ subst e1 e2. split; [eexists; reflexivity | exact I]. }
  destruct E as (-> & x & y & E), F as (-> & x' & y' & F). split; [|reflexivity].
  exact (d_settle _ _ _ _ _ _ _ _ _ E F).
Qed.
Lemma d_liquidate e t a b : both like (a_liquidate L c e a) (a_liquidate M c (set_trk e t) b).
Proof.
  apply both_lift; intros o. apply (both_bind fair); [apply d_market|]. intros a1 b1 [e1 r1] [e2 r2] Fa.
  destruct r1; [|intros ? ? ? ? E; discriminate E]. destruct r2; [|intros ? ? ? ? _ E; discriminate E].
  apply both_ret. apply Fa. reflexivity.
Qed.
Lemma d_limit e t o a b : c_max c <= 10000 -> mine c e -> 0 < nl_price o ->
  both fair (a_submit_limit L c e o a) (a_submit_limit M c (set_trk e t) o b).
Proof.
  intros Cap J Pr a1 [e1 r1] b1 [e2 r2] E F. apply limit_shape in E as (v & V & E); [|assumption..].
  apply limit_shape in F as (v' & V' & F); [|assumption..].
  rewrite V in V'. injection V' as <-. intros O. cbn [fst snd] in *. destruct v as [[]|err].
  2:{ destruct E as [-> E], F as [-> F]. destruct r1, r2; try discriminate. split; [eexists; reflexivity | exact I]. }
  destruct E as (w & W & E), F as (w' & W' & F). cbn [ex_ms set_trk] in W'. rewrite W in W'. injection W' as <-. destruct w as [[]|err].
  2:{ destruct E as [-> E], F as [-> F]. destruct r1, r2; try discriminate. split; [eexists; reflexivity | exact I]. }
  destruct r1 as [f|err], r2 as [f'|err']; try discriminate.
  2:{ subst e1 e2. split; [eexists; reflexivity | exact I]. }
  destruct E as (-> & ->), F as (-> & ->). split; [eexists; reflexivity | reflexivity].
Qed.
Lemma d_cancel e t by_ a b : both (fun p q => like (fst p) (fst q) /\ snd p = snd q) (a_cancel L c e by_ a) (a_cancel M c (set_trk e t) by_ b).
Proof.
  apply both_any; intros a1 b1 old old'. apply both_lift; intros comp. apply both_any; intros a2 b2 ? ?.
  destruct by_ as [id|uid].
  - cbn [ex_active set_trk]. destruct (remove_by_order_id (ex_active e) id) as [[o act']|].
    2:{ apply both_ret. split; [exists t | reflexivity]. reflexivity. }
    apply both_lift; intros om'. apply both_lift; intros nom. apply both_any; intros a3 b3 ? ?. apply both_any; intros a4 b4 ? ?.
    apply both_any; intros a5 b5 ? ?. apply both_any; intros a6 b6 ? ?. apply both_any; intros a7 b7 ? ?.
    apply both_ret. split; [eexists; reflexivity | reflexivity].
  - cbn [ex_active set_trk]. destruct (remove_by_user_order_id (ex_active e) uid) as [[o act']|].
    2:{ apply both_ret. split; [exists t | reflexivity]. reflexivity. }
    apply both_lift; intros om'. apply both_lift; intros nom. apply both_any; intros a3 b3 ? ?. apply both_any; intros a4 b4 ? ?.
    apply both_any; intros a5 b5 ? ?. apply both_any; intros a6 b6 ? ?. apply both_any; intros a7 b7 ? ?.
    apply both_ret. split; [eexists; reflexivity | reflexivity].
Qed.
Lemma d_amend e t id o a b : c_max c <= 10000 -> mine c e -> 0 < nl_price o ->
  both fair (a_amend L c e id o a) (a_amend M c (set_trk e t) id o b).
Proof.
  intros Cap J Pr. unfold a_amend. cbn [ex_active set_trk]. destruct (get_by_id (ex_active e) id) as [x|].
  2:{ apply both_ret. intros _. split; [eexists; reflexivity | exact I]. }
  apply both_lift; intros tot. destruct (_ <=? 0).
  - apply (both_bind (fun p q => like (fst p) (fst q) /\ snd p = snd q)); [apply d_cancel|]. intros a1 b1 [e1 r1] [e2 r2] [Lk Eq]. cbn in Eq. subst r2.
    destruct r1; [|intros ? ? ? ? E; discriminate E]. apply both_ret. intros _. split; [exact Lk | exact I].
  - intros a2 p2 b2 q2 E F. apply lift_bind in E as (o' & So & E). apply lift_bind in F as (o2 & So' & F).
    change (lo_rem x + (nl_rem o - tot)) with (lo_rem x + (nl_rem o - tot)) in So'. rewrite So in So'. injection So' as <-.
    unfold set_remaining_quantity in So. apply bind_done in So as (w & _ & So). injection So as <-.
    apply abind_done in E as (a1 & [e1 r1] & E & E'). apply abind_done in F as (b1 & [e2 r2] & F & F').
    destruct (d_cancel e t (ByOrderId id) a b _ _ _ _ E F) as [[t' Lk] Eq]. cbn in Lk, Eq. subst e2 r2.
    apply any_cancel in E as [J1 _]; [|exact J]. destruct r1 as [f|err].
    + eapply d_limit; [exact Cap | exact J1 | | exact E' | exact F']. exact Pr.
    + injection E' as _ <-. injection F' as _ <-. intros _. split; [eexists; reflexivity | exact I].
Qed.

Definition stepped (p q : exchange * list Z * limit_order) : Prop := like (fst (fst p)) (fst (fst q)) /\ snd (fst p) = snd (fst q) /\ snd p = snd q.
Lemma d_fill_one u e t ids o a b : both stepped (a_fill_one L c u e ids o a) (a_fill_one M c u (set_trk e t) ids o b).
Proof.
  apply both_lift; intros [q|].
  2:{ apply both_ret. split; [eexists; reflexivity | split; reflexivity]. }
  apply both_lift; intros ?. apply both_any; intros a1 b1 old old'. apply both_any; intros a2 b2 ? ?. apply both_lift; intros [o' filled].
  apply (both_bind (fun p q => like (fst p) (fst q) /\ snd p = snd q)).
  { intros x1 [e1 ids1] x2 [e2 ids2] E F. apply alift_done in E as [E _]. apply alift_done in F as [F _]. destruct filled as [fo|].
    - apply bind_done in E as (om1 & O1 & E). apply bind_done in F as (om2 & O2 & F). cbn [ex_om set_trk] in O2. rewrite O1 in O2. injection O2 as <-.
      injection E as <- <-. injection F as <- <-. split; [eexists; reflexivity | reflexivity].
    - apply bind_done in E as (? & _ & E). apply bind_done in F as (? & _ & F).
      apply bind_done in E as ([om1 res1] & O1 & E). apply bind_done in F as ([om2 res2] & O2 & F). cbn [ex_om set_trk] in O2. rewrite O1 in O2.
      injection O2 as <- <-. destruct res1 as [[]|]; [|discriminate]. injection E as <- <-. injection F as <- <-. split; [eexists; reflexivity | reflexivity]. }
  intros a3 b3 [e1 ids1] [e2 ids2] [[t1 Lk] Eq]. cbn in Lk, Eq. subst e2 ids2.
  apply both_lift; intros v. apply (both_bind eq); [apply d_change|]. intros a4 b4 pos ? <-. apply both_any; intros a5 b5 t5 t5'.
  apply both_lift; intros nom. apply both_any; intros a6 b6 ? ?. apply both_any; intros a7 b7 ? ?. apply both_ret.
  split; [eexists; reflexivity | split; reflexivity].
Qed.
Lemma d_fill_loop u todo : forall e t ids a b,
  both (fun p q => like (fst (fst p)) (fst (fst q)) /\ snd (fst p) = snd (fst q) /\ snd p = snd q)
    (a_fill_loop L c u e ids todo a) (a_fill_loop M c u (set_trk e t) ids todo b).
Proof.
  induction todo as [|o l IH]; intros e t ids a b; cbn [a_fill_loop].
  - apply both_ret. split; [eexists; reflexivity | split; reflexivity].
  - apply (both_bind stepped); [apply d_fill_one|]. intros a1 b1 [[e1 ids1] o1] [[e2 ids2] o2] ([t1 Lk] & E1 & E2). cbn in Lk, E1, E2.
    subst e2 ids2 o2. eapply both_bind; [apply IH|]. intros a2 b2 [[e2 ids2] l2] [[e3 ids3] l3] (Lk & E1 & E2). cbn in Lk, E1, E2.
    subst ids3 l3. apply both_ret. split; [exact Lk | split; reflexivity].
Qed.
Lemma d_check e t u a b : both like (a_check L c e u a) (a_check M c (set_trk e t) u b).
Proof.
  unfold a_check. destruct (negb (can_fill u)).
  { apply both_ret. eexists. reflexivity. }
  apply both_lift; intros ?. eapply both_bind; [apply (d_fill_loop u (ex_active (set_updates e [])) (set_updates e []) t)|].
  intros a1 b1 [[e1 ids1] ar1] [[e2 ids2] ar2] ([t1 Lk] & E1 & E2). cbn in Lk, E1, E2. subst e2 ids2 ar2.
  apply both_lift; intros act. apply both_any; intros a2 b2 ? ?. apply both_any; intros a3 b3 ? ?. apply both_any; intros a4 b4 ? ?.
  apply both_any; intros a5 b5 ? ?. apply both_ret. exists t1. reflexivity.
Qed.
Lemma d_update e t u a b : both (fun p q => like (fst p) (fst q) /\ snd p = snd q) (a_update L c e u a) (a_update M c (set_trk e t) u b).
Proof.
  apply both_lift; intros ms. cbv zeta. cbn [ex_trig set_trk set_ms]. destruct (should_trigger (ex_trig e) (update_ts u)) as [trig fire].
  apply (both_bind like).
  { destruct fire; [apply both_any; intros a1 b1 ? ?|]; apply both_ret; eexists; reflexivity. }
  intros a1 b1 e4 ? [t4 ->]. cbn [ex_ms ex_pos set_trk]. destruct (check_maintenance_margin _ _ _ _) as [[]|err].
  - apply (both_bind like); [apply d_check|]. intros a2 b2 e5 ? [t5 ->]. apply both_ret. split; [eexists; reflexivity | reflexivity].
  - apply (both_bind like); [apply d_liquidate|]. intros a2 b2 e5 ? [t5 ->]. apply both_ret. split; [eexists; reflexivity | reflexivity].
Qed.

Hypothesis Cap : c_max c <= 10000.
Lemma fair_out {X} (f : X -> out) m n a b : both fair (m a) (n b) -> both fair (a_out f m a) (a_out f n b).
Proof.
  intros H. apply (both_bind fair); [exact H|]. intros a1 b1 [e1 r1] [e2 r2] Fa. apply both_ret. intros O. cbn [fst snd] in *.
  destruct (Fa ltac:(destruct r1, r2; cbn in O |- *; congruence)) as [Lk Eq]. split; [exact Lk|]. cbn in Eq. destruct r1, r2; cbn; auto. congruence.
Qed.
Lemma same_fair {X} m n : both (fun p q => like (fst p) (fst q) /\ snd p = snd q) m n -> both (@fair X) m n.
Proof. intros H a1 p b1 q E F _. destruct (H _ _ _ _ E F) as [Lk ->]. split; [exact Lk|]. destruct (snd q); [reflexivity | exact I]. Qed.
Lemma fair_refl {X} e t (r : result error X) : fair (e, r) (set_trk e t, r).
Proof. intros _. split; [eexists; reflexivity|]. destruct r; [reflexivity | exact I]. Qed.
Lemma d_step e t o a b : mine c e -> both fair (a_step L c e o a) (a_step M c (set_trk e t) o b).
Proof.
  intros J. destruct o as [u|sd q uid|sd p q uid|by_|id sd p q uid|u]; cbn [a_step].
  - apply both_lift; intros w. apply fair_out. apply same_fair. apply d_update.
  - destruct (market_new sd q uid) as [m|err]; [|apply both_ret, fair_refl]. apply fair_out, d_market.
  - destruct (limit_new sd p q uid) as [m|err] eqn:Ln; [|apply both_ret, fair_refl]. apply limit_new_pos in Ln as [Ln _]. apply fair_out, d_limit; assumption.
  - apply fair_out. apply same_fair. apply d_cancel.
  - destruct (limit_new sd p q uid) as [m|err] eqn:Ln; [|apply both_ret, fair_refl]. apply limit_new_pos in Ln as [Ln _]. apply fair_out, d_amend; assumption.
  - apply both_lift; intros w. apply (both_bind like); [apply d_check|]. intros a1 b1 e1 ? [t1 ->]. apply both_ret, fair_refl.
Qed.
Lemma d_run ops : forall e t a b a' e1 r1 b' e2 r2, mine c e ->
  a_run L c e ops a = Done (a', (e1, r1)) -> a_run M c (set_trk e t) ops b = Done (b', (e2, r2)) ->
  map okay r1 = map okay r2 -> like e1 e2 /\ Forall2 alike r1 r2.
Proof.
  induction ops as [|o ops IH]; intros e t a b a' e1 r1 b' e2 r2 J E F O; cbn [a_run] in E, F.
  { injection E as <- <- <-. injection F as <- <- <-. split; [eexists; reflexivity | constructor]. }
  apply abind_done in E as (a1 & [e3 x] & E & E'). apply abind_done in E' as (a2 & [e4 xs] & E' & E''). injection E'' as <- <- <-.
  apply abind_done in F as (b1 & [f3 y] & F & F'). apply abind_done in F' as (b2 & [f4 ys] & F' & F''). injection F'' as <- <- <-.
  cbn [map] in O. injection O as O1 O2. destruct (d_step e t o a b J _ _ _ _ E F O1) as [[t' Lk] Al]. cbn in Lk, Al. subst f3.
  apply any_step in E; [|exact Cap|exact J]. destruct (IH _ _ _ _ _ _ _ _ _ _ E E' F' O2) as [Lk As].
  split; [exact Lk|]. constructor; [exact Al | exact As].
Qed.
Theorem only_decides ops a e1 r1 b e2 r2 : 0 <= c_max c ->
  a_play L c ops = Done (a, (e1, r1)) -> a_play M c ops = Done (b, (e2, r2)) ->
  map okay r1 = map okay r2 -> like e1 e2 /\ Forall2 alike r1 r2.
Proof.
  intros Z E F O. unfold a_play in E, F. apply bind_done in E as ([a0 e0] & E0 & E). apply bind_done in F as ([b0 f0] & F0 & F).
  pose proof (any_init L c _ _ Z E0) as J. assert (Lk : exists t, f0 = set_trk e0 t).
  { unfold a_init in E0, F0. apply bind_done in E0 as (t & T & E0). apply bind_done in F0 as (t' & T' & F0).
    apply bind_done in E0 as (? & _ & E0). apply bind_done in F0 as (? & _ & F0). injection E0 as <- <-. injection F0 as <- <-. eexists. reflexivity. }
  destruct Lk as [t ->]. eapply d_run; [exact J | exact E | exact F | exact O].
Qed.
End Two.
