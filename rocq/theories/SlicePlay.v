(** A market order in parts on the reference machine. *)
From Verif Require Import ProofBase Types Accounting Position OrderBook OrderMargin MarketUpdate Exchange Spec SpecConfig SpecRules SpecMarket SpecFlow SpecMargin
  SpecView SpecMachine SpecCrash MachineProof CrashProof Inv StepLemmas OrderProof HealthProof LiqProof SpecSlice SliceProof.

Lemma fault_allowed f q : qf_tick f <> 0 -> 0 < q -> (quantity_fault f q = None <-> quantity_allowed f q).
Proof.
  intros Ht Hq. unfold quantity_fault, quantity_allowed, above, below, origin. split.
  - intros H. split; [lia|]. destruct (qf_max f) as [x|]; [destruct (Z.ltb_spec x q); [discriminate|]|];
    (split; [intros (y & E & L); try discriminate; injection E as <-; lia|]); (destruct (qf_min f) as [y|]; [destruct (Z.ltb_spec q y); [discriminate|]|];
    (split; [intros (z & E & L); try discriminate; injection E as <-; lia|]); destruct (_ =? 0) eqn:E in H; try discriminate; apply Z.eqb_eq in E; apply Z.mod_divide; assumption).
  - intros (_ & A & B & D). apply Z.mod_divide in D; [|exact Ht].
    destruct (qf_max f) as [x|]; [destruct (Z.ltb_spec x q); [exfalso; apply A; eauto|]|];
    (destruct (qf_min f) as [y|]; [destruct (Z.ltb_spec q y); [exfalso; apply B; eauto|]|]); rewrite D; reflexivity.
Qed.

Lemma sum_all l : (forall q, In q l -> 0 < q) -> 0 <= sumZ l.
Proof. intros H. destruct l as [|a l]; [reflexivity|]. pose proof (sum_pos (a :: l) H ltac:(discriminate)). lia. Qed.

Section Played.
Variables (c : config) (sd : side) (uid : Z).
Hypothesis V : valid_config c.
Let k := c_kind c.
Let s := c_scale c.
Let sg : Z := match sd with Buy => 1 | Sell => -1 end.
Let R := ct_taker (c_spec c).
Let bk (p q : Z) : fill := {| f_side := sd; f_qty := q; f_price := p; f_rate := R |}.

(** One part that is accepted. *)
Lemma one_done m q m' r : m_exec c m (OpMarket sd q uid) = Done (m', r) -> (exists o, r = Ok o) ->
  0 < q /\ quantity_fault (ct_qf (c_spec c)) q = None /\ 0 < m_price m sd /\ m_funded c m sd q = true /\ fill_crash c m (bk (m_price m sd) q) = None /\
  m' = with_id (m_fill c m (bk (m_price m sd) q)).
Proof.
  unfold m_exec. cbn [m_crash m_call]. unfold market_crash, m_market. destruct (Z.leb_spec q 0) as [L|L]; [intros H (o & E); congruence|].
  destruct (quantity_fault _ q) eqn:F; [intros H (o' & E); congruence|]. destruct (m_funded c m sd q) eqn:W.
  - destruct (first_of _) eqn:C; [discriminate|]. intros H _. injection H as <- _. revert C. unfold first_of, demand. destruct (_ || _); [|discriminate].
    unfold take_crash, first_of, demand. destruct (Z.ltb_spec 0 (m_price m sd)); [|discriminate]. destruct (fill_crash c m _) eqn:C; [discriminate|]. intros _.
    repeat split; auto.
  - destruct (first_of _); [discriminate|]. intros H (o & E). congruence.
Qed.
Lemma one_ok m q : 0 < q -> quantity_fault (ct_qf (c_spec c)) q = None -> 0 < m_price m sd -> m_funded c m sd q = true -> fill_crash c m (bk (m_price m sd) q) = None ->
  exists o, m_exec c m (OpMarket sd q uid) = Done (with_id (m_fill c m (bk (m_price m sd) q)), Ok o).
Proof.
  intros Hq F Hp W C. unfold m_exec. cbn [m_crash m_call]. unfold market_crash, m_market. rewrite (proj2 (Z.leb_gt q 0)) by lia. rewrite F, W.
  assert (D : divides c (m_price m sd) = true) by (unfold divides; destruct (c_kind c); [reflexivity | rewrite (proj2 (Z.eqb_neq _ 0)) by lia; reflexivity]).
  rewrite D, orb_true_r. unfold first_of, demand, take_crash, first_of, demand. rewrite (proj2 (Z.ltb_lt 0 _)) by lia.
  change (taken c m sd q) with (bk (m_price m sd) q). rewrite C. eexists. reflexivity.
Qed.

Lemma all_ok_cons r rs : all_ok (r :: rs) <-> (exists o, r = Ok o) /\ all_ok rs.
Proof. unfold all_ok. split; [intros H; split; [apply H; left; reflexivity | intros x X; apply H; right; exact X] | intros [H1 H2] x [<-|X]; auto]. Qed.
Lemma play_cons m q l m' outs : m_play c m (slices sd uid (q :: l)) = Done (m', outs) -> all_ok outs ->
  exists r rs, outs = r :: rs /\ (exists o, r = Ok o) /\ all_ok rs /\
  0 < q /\ quantity_fault (ct_qf (c_spec c)) q = None /\ 0 < m_price m sd /\ m_funded c m sd q = true /\ fill_crash c m (bk (m_price m sd) q) = None /\
  m_play c (with_id (m_fill c m (bk (m_price m sd) q))) (slices sd uid l) = Done (m', rs).
Proof.
  cbn [slices map m_play]. intros H A. apply bind_done in H as [[m1 r] [H1 H]]. apply bind_done in H as [[m2 rs] [H2 H]]. injection H as <- <-.
  apply all_ok_cons in A as [A1 A2]. destruct (one_done m q m1 r H1 A1) as (B1 & B2 & B3 & B4 & B5 & ->). exists r, rs. repeat (split; [auto; fail|]). exact H2.
Qed.
Lemma play_ok_cons m q l : 0 < q -> quantity_fault (ct_qf (c_spec c)) q = None -> 0 < m_price m sd -> m_funded c m sd q = true -> fill_crash c m (bk (m_price m sd) q) = None ->
  (exists m' outs, m_play c (with_id (m_fill c m (bk (m_price m sd) q))) (slices sd uid l) = Done (m', outs) /\ all_ok outs) ->
  exists m' outs, m_play c m (slices sd uid (q :: l)) = Done (m', outs) /\ all_ok outs.
Proof.
  intros H1 H2 H3 H4 H5 (m' & outs & H & A). destruct (one_ok m q H1 H2 H3 H4 H5) as (o & E). cbn [slices map m_play]. rewrite E. cbn [bind]. unfold slices in H. rewrite H. cbn [bind].
  do 2 eexists. split; [reflexivity|]. apply all_ok_cons. split; [eauto | exact A].
Qed.

Lemma play_book : forall l m m' outs, m_play c m (slices sd uid l) = Done (m', outs) -> all_ok outs ->
  (forall q, In q l -> 0 < q) /\ (l <> [] -> 0 < m_price m sd) /\ m_book m' = fold_left (apply_fill k s) (map (bk (m_price m sd)) l) (m_book m) /\
  m_orders m' = m_orders m /\ m_reserved m' = m_reserved m /\ m_bid m' = m_bid m /\ m_ask m' = m_ask m /\ m_time m' = m_time m.
Proof.
  induction l as [|q l IH]; intros m m' outs H A.
  - cbn in H. injection H as <- <-. split; [intros q []|]. split; [contradiction|]. repeat split; reflexivity.
  - destruct (play_cons _ _ _ _ _ H A) as (r & rs & -> & _ & A2 & B1 & _ & B3 & _ & _ & H2). destruct (IH _ _ _ H2 A2) as (I1 & _ & I3 & I4).
    split; [intros x [<-|X]; auto|]. split; [auto|]. split; [exact I3 | exact I4].
Qed.

(** ** Adding *)
Definition adding (m : machine) : Prop := m_pos m = 0 \/ exists h, 0 < h /\ m_pos m = sg * h.
Lemma sg_or : sg = 1 \/ sg = -1.
Proof. unfold sg. destruct sd; auto. Qed.
Lemma bk_signed p q : signed_qty (bk p q) = sg * q.
Proof. unfold signed_qty, sg. cbn [bk f_side f_qty]. destruct sd; lia. Qed.
Lemma adding_test m p q : adding m -> 0 < q -> (m_pos m =? 0) || (Z.sgn (m_pos m) =? Z.sgn (signed_qty (bk p q))) = true.
Proof.
  intros [->|(h & Hh & ->)] Hq; [reflexivity|]. rewrite bk_signed. apply orb_true_iff. right. apply Z.eqb_eq. destruct sg_or as [E|E]; rewrite E; lia.
Qed.
Lemma adding_fill m q : adding m -> 0 < q -> let m1 := with_id (m_fill c m (bk (m_price m sd) q)) in
  adding m1 /\ l_cash (m_book m1) = l_cash (m_book m) /\ l_paid (m_book m1) = l_paid (m_book m) /\ m_held m1 = m_held m + margin_at c q (m_price m sd) /\
  m_price m1 sd = m_price m sd.
Proof.
  intros A Hq m1. pose proof (adding_test m (m_price m sd) q A Hq) as T. unfold m1, m_pos in *. cbn [with_id m_fill m_book m_held].
  unfold margin_after. rewrite T. unfold adding, m_pos. cbn [with_id m_fill m_book]. unfold apply_fill.
  destruct (Z.eqb_spec (l_qty (m_book m)) 0) as [E|E]; cbn [orb l_qty l_cash l_paid] in *.
  - split; [right; exists q; split; [lia | apply bk_signed]|]. repeat split; reflexivity.
  - rewrite T. cbn [l_qty l_cash l_paid]. split; [|repeat split; reflexivity]. right. destruct A as [A|(h & Hh & A)]; [contradiction|]. exists (h + q). split; [lia|].
    unfold m_pos in A. rewrite A, bk_signed. ring.
Qed.
Lemma adding_free m q : adding m -> 0 < q -> m_free (with_id (m_fill c m (bk (m_price m sd) q))) = m_free m - margin_at c q (m_price m sd).
Proof.
  intros A Hq. destruct (adding_fill m q A Hq) as (_ & B1 & _ & B2 & _). unfold m_free in *. cbn [with_id m_fill m_reserved m_book m_held] in *. lia.
Qed.
Lemma adding_funded m q : adding m -> 0 < q -> (m_funded c m sd q = true <-> margin_at c q (m_price m sd) + taker_cost c q (m_price m sd) <= m_free m).
Proof.
  intros A Hq. unfold m_funded. cbv zeta. change (taken c m sd q) with (bk (m_price m sd) q). rewrite (adding_test m _ q A Hq). apply Z.leb_le.
Qed.
Lemma adding_crash m q : adding m -> 0 < q -> (fill_crash c m (bk (m_price m sd) q) = None <-> 0 < margin_at c q (m_price m sd)).
Proof.
  intros A Hq. unfold fill_crash. cbv zeta. rewrite (adding_test m _ q A Hq). cbn [bk f_qty f_price]. unfold demand. destruct (Z.ltb_spec 0 (margin_at c q (m_price m sd))); [tauto|].
  split; [discriminate | lia].
Qed.
Lemma margins_cons p q l : margins c p (q :: l) = margin_at c q p + margins c p l.
Proof. reflexivity. Qed.
Lemma adding_play : forall l m m' outs, adding m -> m_play c m (slices sd uid l) = Done (m', outs) -> all_ok outs ->
  l_cash (m_book m') = l_cash (m_book m) /\ l_paid (m_book m') = l_paid (m_book m) /\ m_held m' = m_held m + margins c (m_price m sd) l.
Proof.
  induction l as [|q l IH]; intros m m' outs A H O.
  - cbn in H. injection H as <- <-. unfold margins; cbn. lia.
  - destruct (play_cons _ _ _ _ _ H O) as (r & rs & -> & _ & A2 & B1 & _ & B3 & _ & _ & H2). destruct (adding_fill m q A B1) as (C1 & C2 & C3 & C4 & C5).
    destruct (IH _ _ _ C1 H2 A2) as (D1 & D2 & D3). rewrite C5 in D3. rewrite margins_cons. lia.
Qed.
Definition funds (m : machine) (l : list Z) : Prop :=
  forall before q after, l = before ++ q :: after -> margins c (m_price m sd) (before ++ [q]) + taker_cost c q (m_price m sd) <= m_free m.
Lemma adding_exact : forall l m, adding m ->
  ((exists m' outs, m_play c m (slices sd uid l) = Done (m', outs) /\ all_ok outs) <->
   (forall q, In q l -> 0 < q /\ quantity_fault (ct_qf (c_spec c)) q = None /\ 0 < margin_at c q (m_price m sd)) /\ (l <> [] -> 0 < m_price m sd) /\ funds m l).
Proof.
  induction l as [|q l IH]; intros m A.
  - split; [intros _|intros _; exists m, []; split; [reflexivity | intros r []]]. split; [intros q []|]. split; [contradiction|]. intros b q a E. destruct b; discriminate.
  - split.
    + intros (m' & outs & H & O). destruct (play_cons _ _ _ _ _ H O) as (r & rs & -> & _ & A2 & B1 & B2 & B3 & B4 & B5 & H2). destruct (adding_fill m q A B1) as (C1 & _ & _ & _ & C5).
      destruct (proj1 (IH _ C1) (ex_intro _ _ (ex_intro _ _ (conj H2 A2)))) as (D1 & _ & D3). rewrite C5 in D1.
      apply (adding_crash m q A B1) in B5. apply (adding_funded m q A B1) in B4. split; [intros x [<-|X]; auto|]. split; [auto|].
      intros b x a E. destruct b as [|y b]; cbn [app] in E; injection E as <- E.
      * unfold margins; cbn. lia.
      * specialize (D3 b x a E). rewrite C5, (adding_free m q A B1) in D3. cbn [app]. rewrite margins_cons. lia.
    + intros (H1 & H2 & H3). destruct (H1 q (or_introl eq_refl)) as (B1 & B2 & B3). specialize (H2 ltac:(discriminate)).
      destruct (adding_fill m q A B1) as (C1 & _ & _ & _ & C5). apply play_ok_cons; auto.
      * apply (adding_funded m q A B1). specialize (H3 [] q l eq_refl). unfold margins in H3; cbn in H3. lia.
      * apply (adding_crash m q A B1), B3.
      * apply (IH _ C1). rewrite C5. split; [intros x X; apply H1; right; exact X|]. split; [auto|].
        intros b x a E. rewrite C5, (adding_free m q A B1). specialize (H3 (q :: b) x a ltac:(cbn; congruence)). cbn [app] in H3. rewrite margins_cons in H3. lia.
Qed.

(** ** Reducing *)
Lemma reducing_test h p q : 0 < h -> 0 < q -> (- sg * h =? 0) || (Z.sgn (- sg * h) =? Z.sgn (signed_qty (bk p q))) = false.
Proof. intros Hh Hq. rewrite bk_signed. apply orb_false_iff. split; apply Z.eqb_neq; destruct sg_or as [E|E]; rewrite E; lia. Qed.
Lemma reducing_abs h : 0 < h -> Z.abs (- sg * h) = h.
Proof. intros. destruct sg_or as [E|E]; rewrite E; lia. Qed.
Lemma reducing_fill m h q : m_pos m = - sg * h -> 0 < q <= h -> let m1 := with_id (m_fill c m (bk (m_price m sd) q)) in
  m_pos m1 = - sg * (h - q) /\ (q < h -> l_entry (m_book m1) = l_entry (m_book m)) /\ m_held m1 = m_held m - margin_at c q (l_entry (m_book m)) /\
  m_price m1 sd = m_price m sd.
Proof.
  intros P Hq m1. pose proof (reducing_test h (m_price m sd) q ltac:(lia) ltac:(lia)) as T. apply orb_false_iff in T as [T1 T2]. unfold m1, m_pos in *. cbn [with_id m_fill m_book m_held].
  unfold margin_after, apply_fill. rewrite P, T1, T2. cbn [orb bk f_qty]. rewrite reducing_abs by lia. rewrite (proj2 (Z.leb_le q h)) by lia.
  fold (bk (m_price m sd) q). rewrite bk_signed. cbn [l_qty l_entry].
  split; [ring|]. split; [|split; reflexivity]. intros L. rewrite (proj2 (Z.eqb_neq _ 0)) by (destruct sg_or as [E|E]; rewrite E; lia).
  rewrite (proj2 (Z.eqb_eq _ _)) by (destruct sg_or as [E|E]; rewrite E; lia). reflexivity.
Qed.
Lemma reducing_funded m h q : m_pos m = - sg * h -> 0 < q <= h -> m_funded c m sd q = true.
Proof.
  intros P Hq. unfold m_funded. cbv zeta. change (taken c m sd q) with (bk (m_price m sd) q). rewrite P, (reducing_test h _ q) by lia. rewrite reducing_abs by lia.
  rewrite (proj2 (Z.leb_le q h)) by lia. reflexivity.
Qed.
Lemma margin_divides q p : 0 < margin_at c q p -> divides c p = true.
Proof.
  unfold margin_at, divides, value. destruct (c_kind c); [reflexivity|]. destruct (Z.eqb_spec p 0) as [->|]; [|reflexivity]. rewrite quot_zero, Z.mul_0_l, Z.quot_0_l by (pose proof (vc_scale _ V); lia). lia.
Qed.
Lemma reducing_crash m h q p : m_pos m = - sg * h -> 0 < q <= h ->
  (fill_crash c m (bk p q) = None <-> 0 < margin_at c q (l_entry (m_book m)) /\ (c_dbg c = true -> q = h -> m_held m = margin_at c q (l_entry (m_book m)))).
Proof.
  intros P Hq. unfold fill_crash. cbv zeta. rewrite P, (reducing_test h _ q) by lia. rewrite reducing_abs by lia. cbn [bk f_qty f_price]. rewrite Z.min_l by lia.
  set (E := l_entry (m_book m)). unfold first_of, demand, in_debug. destruct (Z.ltb_spec 0 (margin_at c q E)) as [L|L].
  - rewrite (margin_divides q E L). destruct (Z.compare_spec q h) as [->|C|C]; [| |lia].
    + destruct (c_dbg c); [|intuition discriminate]. destruct (Z.eqb_spec (m_held m) (margin_at c h E)); [tauto|]. split; [discriminate | intros [_ K]; specialize (K eq_refl eq_refl); contradiction].
    + split; [intros _; split; [lia | intros _ ?; lia] | intros _; destruct (c_dbg c); reflexivity].
  - split; [|lia]. destruct (divides c E); [|discriminate]. destruct (c_dbg c); discriminate.
Qed.
Lemma reducing_exact : forall l m h, m_pos m = - sg * h -> sumZ l <= h -> (forall q, In q l -> 0 < q) ->
  ((exists m' outs, m_play c m (slices sd uid l) = Done (m', outs) /\ all_ok outs) <->
   (forall q, In q l -> quantity_fault (ct_qf (c_spec c)) q = None /\ 0 < margin_at c q (l_entry (m_book m))) /\ (l <> [] -> 0 < m_price m sd) /\
   (l <> [] -> c_dbg c = true -> sumZ l = h -> m_held m = margins c (l_entry (m_book m)) l)).
Proof.
  induction l as [|q l IH]; intros m h P S Q.
  - split; [intros _|intros _; exists m, []; split; [reflexivity | intros r []]]. split; [intros q []|]. split; contradiction.
  - assert (Ql : forall x, In x l -> 0 < x) by (intros x X; apply Q; right; exact X). pose proof (Q q (or_introl eq_refl)) as Hq. pose proof (sum_all l Ql) as Sl.
    change (sumZ (q :: l)) with (q + sumZ l) in *. destruct (reducing_fill m h q P ltac:(lia)) as (C1 & C2 & C3 & C4). specialize (IH _ (h - q) C1 ltac:(lia) Ql).
    assert (N : l <> [] -> q < h) by (intros N; pose proof (sum_pos l Ql N); lia). rewrite C3, C4 in IH.
    assert (E : l <> [] -> l_entry (m_book (with_id (m_fill c m (bk (m_price m sd) q)))) = l_entry (m_book m)) by auto.
    pose proof (reducing_crash m h q (m_price m sd) P ltac:(lia)) as K. rewrite margins_cons. split.
    + intros (m' & outs & H & O). destruct (play_cons _ _ _ _ _ H O) as (r & rs & -> & _ & A2 & B1 & B2 & B3 & B4 & B5 & H2).
      destruct (proj1 IH (ex_intro _ _ (ex_intro _ _ (conj H2 A2)))) as (D1 & _ & D3). apply K in B5 as [B5 B6].
      split; [intros x [<-|X]; [auto|]; assert (Nl : l <> []) by (intros ->; destruct X); rewrite (E Nl) in D1; apply D1, X|]. split; [auto|]. intros _ Dg Sm.
      destruct (list_eq_dec Z.eq_dec l []) as [->|Nl]; [unfold margins; cbn in *; rewrite B6 by (auto; lia); lia|]. specialize (D3 Nl Dg ltac:(lia)). rewrite (E Nl) in D3. lia.
    + intros (H1 & H2 & H3). destruct (H1 q (or_introl eq_refl)) as (B1 & B2). specialize (H2 ltac:(discriminate)). specialize (H3 ltac:(discriminate)).
      apply play_ok_cons; auto.
      * apply (reducing_funded m h q P ltac:(lia)).
      * apply K. split; [exact B2|]. intros Dg ->. rewrite H3 by (auto; lia). assert (l = []) by (destruct l; [reflexivity|]; specialize (N ltac:(discriminate)); lia). subst l. unfold margins; cbn. lia.
      * apply IH. destruct (list_eq_dec Z.eq_dec l []) as [->|Nl]; [split; [intros ? []|]; split; contradiction|]. rewrite (E Nl).
        split; [intros x X; apply H1; right; exact X|]. split; [auto|]. intros _ Dg Sm. rewrite H3 by (auto; lia). lia.
Qed.
End Played.
