(** How far the ledger totals, the position and the statistics can grow, over unbounded integers. *)
From Coq Require Import Permutation.
From Verif Require Import ProofBase BookLemmas StepLemmas FillLemmas OpLemmas Inv Spec SpecMargin SpecConfig SpecBound
  MarginProof OrderProof SoundProof.

(** ** Values *)
Lemma quot_scaled s a : 0 < s -> 0 <= a -> 0 <= Z.quot a s /\ s * Z.quot a s <= a.
Proof. intros Hs Ha. split; [apply Z.quot_pos; lia | apply Z.mul_quot_le; lia]. Qed.

Lemma conv_weight c P q p :
  0 < c_scale c -> 0 <= q -> 0 <= p <= P ->
  0 <= conv (c_kind c) (c_scale c) q p /\ c_scale c * conv (c_kind c) (c_scale c) q p <= weight c P * q.
Proof.
  intros Hs Hq Hp. unfold weight, conv. set (s := c_scale c) in *. destruct (c_kind c).
  - destruct (quot_scaled s (q * p) Hs ltac:(nia)). split; [assumption | nia].
  - destruct (Z.eq_dec p 0) as [->|Hp0]; [rewrite Zquot.Zquot_0_r; nia|].
    destruct (quot_scaled p (q * s) ltac:(lia) ltac:(nia)). split; [assumption|].
    assert (Z.quot (q * s) p <= q * s) by nia. nia.
Qed.

Lemma conv_abs c P q p :
  0 < c_scale c -> 0 <= p <= P -> c_scale c * Z.abs (conv (c_kind c) (c_scale c) q p) <= weight c P * Z.abs q.
Proof.
  intros Hs Hp. assert (E : Z.abs (conv (c_kind c) (c_scale c) q p) = conv (c_kind c) (c_scale c) (Z.abs q) p).
  { unfold conv. destruct (c_kind c).
    - rewrite <- Z.quot_abs by lia. f_equal; [rewrite Z.abs_mul; f_equal; lia | lia].
    - destruct (Z.eq_dec p 0) as [->|Hp0]; [rewrite !Zquot.Zquot_0_r; reflexivity|].
      rewrite <- Z.quot_abs by lia. f_equal; [rewrite Z.abs_mul; f_equal; lia | lia]. }
  rewrite E. apply conv_weight; lia.
Qed.

Lemma conv_sign c q p : 0 < c_scale c -> 0 <= p -> 0 <= Z.sgn q * conv (c_kind c) (c_scale c) q p.
Proof.
  intros Hs Hp. unfold conv. destruct (c_kind c).
  - destruct (Z.lt_total q 0) as [H|[->|H]]; [|lia|].
    + replace q with (- (- q)) by lia. rewrite Z.mul_opp_l, Z.quot_opp_l by lia.
      pose proof (Z.quot_pos (- q * p) (c_scale c)). rewrite Z.sgn_opp. rewrite (Z.sgn_pos (- q)) by lia. nia.
    + pose proof (Z.quot_pos (q * p) (c_scale c)). rewrite Z.sgn_pos by lia. nia.
  - destruct (Z.eq_dec p 0) as [->|Hp0]; [rewrite Zquot.Zquot_0_r; lia|].
    destruct (Z.lt_total q 0) as [H|[->|H]]; [|lia|].
    + replace q with (- (- q)) by lia. rewrite Z.mul_opp_l, Z.quot_opp_l by lia.
      pose proof (Z.quot_pos (- q * c_scale c) p). rewrite Z.sgn_opp. rewrite (Z.sgn_pos (- q)) by lia. nia.
    + pose proof (Z.quot_pos (q * c_scale c) p). rewrite Z.sgn_pos by lia. nia.
Qed.

Lemma pnl_weight c P entry exit q :
  0 < c_scale c -> 0 <= entry <= P -> 0 <= exit <= P ->
  c_scale c * Z.abs (pnl_pure (c_kind c) (c_scale c) entry exit q) <= weight c P * Z.abs q.
Proof.
  intros Hs He Hx. pose proof (conv_abs c P q entry Hs He) as A. pose proof (conv_abs c P q exit Hs Hx) as B.
  pose proof (conv_sign c q entry Hs (proj1 He)) as SA. pose proof (conv_sign c q exit Hs (proj1 Hx)) as SB.
  assert (H : Z.abs (pnl_pure (c_kind c) (c_scale c) entry exit q)
              <= Z.max (Z.abs (conv (c_kind c) (c_scale c) q entry)) (Z.abs (conv (c_kind c) (c_scale c) q exit))).
  { unfold pnl_pure. destruct (Z.lt_total q 0) as [H|[->|H]].
    - rewrite Z.sgn_neg in SA, SB by lia. destruct (c_kind c); lia.
    - destruct (c_kind c); rewrite !conv_0; lia.
    - rewrite Z.sgn_pos in SA, SB by lia. destruct (c_kind c); lia. }
  nia.
Qed.

Lemma margin_weight c P q p :
  valid_config c -> 0 <= q -> 0 <= p <= P ->
  0 <= margin_of c q p /\ c_scale c * margin_of c q p <= weight c P * q.
Proof.
  intros V Hq Hp. pose proof (vc_scale _ V) as Hs. destruct (conv_weight c P q p Hs Hq Hp) as [C1 C2].
  unfold margin_of. pose proof (dmul_le _ _ _ Hs C1 (vc_imr _ V)).
  pose proof (dmul_nonneg _ _ _ Hs C1 (proj1 (vc_imr _ V))). nia.
Qed.

Lemma fee_weight c P q p rate :
  0 < c_scale c -> Z.abs rate <= c_scale c -> 0 <= q -> 0 <= p <= P ->
  Z.abs (fee_of c q p rate) <= conv (c_kind c) (c_scale c) q p.
Proof.
  intros Hs Hr Hq Hp. destruct (conv_weight c P q p Hs Hq Hp) as [C1 C2]. unfold fee_of, dmul.
  rewrite <- Z.quot_abs by lia. rewrite Z.abs_mul, (Z.abs_eq (conv _ _ _ _)), (Z.abs_eq (c_scale c)) by lia.
  set (v := conv _ _ _ _) in *. apply (Z.le_trans _ (Z.quot (v * c_scale c) (c_scale c))).
  - apply Z.quot_le_mono; nia.
  - rewrite Z.quot_mul; lia.
Qed.

Lemma weighted_range s P p0 w0 p1 w1 :
  0 < s -> 0 <= p0 <= P -> 0 <= p1 <= P -> 0 <= w0 -> 0 < w1 -> 0 <= weighted s p0 w0 p1 w1 <= P.
Proof.
  intros Hs H0 H1 W0 W1. unfold weighted, dmul.
  destruct (quot_scaled s (p0 * w0) Hs ltac:(nia)) as [A1 A2]. destruct (quot_scaled s (p1 * w1) Hs ltac:(nia)) as [B1 B2].
  set (x := Z.quot (p0 * w0) s) in *. set (y := Z.quot (p1 * w1) s) in *.
  destruct (quot_scaled (w0 + w1) ((x + y) * s) ltac:(lia) ltac:(nia)) as [C1 C2].
  split; [assumption|]. assert ((x + y) * s <= P * (w0 + w1)) by nia.
  set (z := Z.quot ((x + y) * s) (w0 + w1)) in *. nia.
Qed.

(** ** Position changes *)
Definition pq (p : position) : Z := Z.abs (position_quantity p).
Definition due (p : position) : Z := position_outstanding_fees p.
Definition entry_in (P : Z) (p : position) : Prop := 0 <= position_entry_price p <= P.
Definition own (a : accounts) : Z := bal a WALLET + bal a ORDER_MARGIN.

Lemma transfer_debits acc d c amt : d <> c -> debit_sum (transfer_pure acc d c amt) = debit_sum acc + amt.
Proof. intros H. apply (transfer_sums acc d c amt H). Qed.

Lemma settle_debits acc profit margin due :
  debit_sum (settle_acc acc profit margin due) = debit_sum acc + Z.abs profit + margin + Z.max 0 due.
Proof.
  unfold settle_acc, pay_due, settle_profit.
  destruct (Z.compare_spec profit 0); destruct (Z.ltb_spec 0 due);
  rewrite ?transfer_debits by discriminate; lia.
Qed.

Lemma settle_own acc profit margin due :
  own (settle_acc acc profit margin due) = own acc + profit + margin - Z.max 0 due.
Proof. unfold own. rewrite !bal_settle. lia. Qed.

Lemma margin_own acc m : own (transfer_pure acc POSITION_MARGIN WALLET m) = own acc - m.
Proof. unfold own. rewrite !bal_transfer by discriminate. unfold delta; cbn. lia. Qed.

(** [k] contracts are closed, the others are opened. *)
Lemma cp_bound c P acc q p sd f pos pos' acc' :
  valid_config c -> 0 <= p <= P -> c_scale c * Z.abs f <= weight c P * q -> pos_ok pos -> entry_in P pos ->
  cp_case c acc q p sd f pos pos' acc' ->
  0 < q /\ entry_in P pos' /\
  exists k, 0 <= k <= q /\ k <= pq pos /\ pq pos' = pq pos + q - 2 * k /\
    Z.abs (due pos') <= Z.abs (due pos) + Z.abs f /\
    c_scale c * debit_sum acc' + c_scale c * Z.max 0 (due pos') + weight c P * (3 * pq pos')
      <= c_scale c * debit_sum acc + c_scale c * Z.max 0 (due pos) + weight c P * (3 * pq pos) + weight c P * (5 * (q - k)) /\
    c_scale c * own acc' + weight c P * (2 * pq pos')
      <= c_scale c * own acc + weight c P * (2 * pq pos) + weight c P * (2 * (q - k)).
Proof.
  intros V Hp Hf Hpos He H. pose proof (vc_scale _ V) as Hs.
  assert (HP : 0 <= weight c P) by (unfold weight; destruct (c_kind c); nia).
  destruct H as [Hq Hp0 Hm _|i Hq Hp0 Hm|i Hq Hlt Hm|i Hq Heq Hm _|i Hi Hlt Hp0 Hm Hm2 _].
  - split; [assumption|]. split; [destruct sd; cbn; unfold entry_in; cbn; lia|]. exists 0.
    destruct (margin_weight c P q p V ltac:(lia) Hp) as [M1 M2].
    assert (E1 : pq (mk_pos sd {| pi_qty := q; pi_entry := p; pi_fees := f |}) = q) by (unfold pq; destruct sd; cbn; lia).
    assert (E2 : due (mk_pos sd {| pi_qty := q; pi_entry := p; pi_fees := f |}) = f) by (destruct sd; reflexivity).
    rewrite E1, E2, margin_own, transfer_debits by discriminate.
    change (pq Neutral) with 0. change (due Neutral) with 0.
    split; [lia|]. split; [lia|]. split; [lia|]. split; [lia|]. split; nia.
  - split; [assumption|].
    assert (Hi : 0 < pi_qty i) by (apply mk_pos_ok in Hpos; assumption).
    assert (Hei : 0 <= pi_entry i <= P) by (destruct sd; exact He).
    split.
    { destruct (weighted_range (c_scale c) P (pi_entry i) (pi_qty i) p q Hs Hei Hp ltac:(lia) Hq) as [W1 W2].
      destruct sd; cbn; unfold entry_in; cbn; split; assumption. }
    exists 0. destruct (margin_weight c P q p V ltac:(lia) Hp) as [M1 M2].
    assert (E1 : forall x y z, pq (mk_pos sd {| pi_qty := x; pi_entry := y; pi_fees := z |}) = Z.abs x) by (intros; unfold pq; destruct sd; cbn; lia).
    assert (E2 : forall x y z, due (mk_pos sd {| pi_qty := x; pi_entry := y; pi_fees := z |}) = z) by (destruct sd; reflexivity).
    destruct i as [iq ie ifs]; cbn [pi_qty pi_entry pi_fees] in *.
    rewrite !E1, !E2, margin_own, transfer_debits by discriminate.
    rewrite !Z.abs_eq in * by lia.
    split; [lia|]. split; [lia|]. split; [lia|]. split; [lia|]. split; nia.
  - split; [assumption|].
    assert (Hei : 0 <= pi_entry i <= P) by (destruct sd; exact He).
    split; [destruct sd; exact Hei|]. exists q.
    destruct (margin_weight c P q (pi_entry i) V ltac:(lia) Hei) as [M1 M2].
    assert (E1 : forall x y z, pq (mk_pos (side_inverted sd) {| pi_qty := x; pi_entry := y; pi_fees := z |}) = Z.abs x) by (intros; unfold pq; destruct sd; cbn; lia).
    assert (E2 : forall x y z, due (mk_pos (side_inverted sd) {| pi_qty := x; pi_entry := y; pi_fees := z |}) = z) by (destruct sd; reflexivity).
    pose proof (pnl_weight c P (pi_entry i) p (dir (negb (is_buy sd)) q) Hs Hei Hp) as Pn.
    replace (Z.abs (dir (negb (is_buy sd)) q)) with q in Pn by (unfold dir; destruct sd; cbn; lia).
    set (pr := pnl_pure _ _ _ _ _) in *. clearbody pr.
    destruct i as [iq ie ifs]; cbn [pi_qty pi_entry pi_fees] in *.
    rewrite !E1, !E2, settle_own, settle_debits. rewrite (Z.abs_eq (iq - q)), (Z.abs_eq iq) by lia.
    split; [lia|]. split; [lia|]. split; [lia|]. split; [lia|]. split; nia.
  - assert (Hei : 0 <= pi_entry i <= P) by (destruct sd; exact He).
    split; [assumption|]. split; [unfold entry_in; cbn; lia|]. exists q.
    destruct (margin_weight c P q (pi_entry i) V ltac:(lia) Hei) as [M1 M2].
    assert (E1 : forall x y z, pq (mk_pos (side_inverted sd) {| pi_qty := x; pi_entry := y; pi_fees := z |}) = Z.abs x) by (intros; unfold pq; destruct sd; cbn; lia).
    assert (E2 : forall x y z, due (mk_pos (side_inverted sd) {| pi_qty := x; pi_entry := y; pi_fees := z |}) = z) by (destruct sd; reflexivity).
    pose proof (pnl_weight c P (pi_entry i) p (dir (negb (is_buy sd)) q) Hs Hei Hp) as Pn.
    replace (Z.abs (dir (negb (is_buy sd)) q)) with q in Pn by (unfold dir; destruct sd; cbn; lia).
    set (pr := pnl_pure _ _ _ _ _) in *. clearbody pr.
    destruct i as [iq ie ifs]; cbn [pi_qty pi_entry pi_fees] in *.
    rewrite !E1, !E2, settle_own, settle_debits. change (pq Neutral) with 0. change (due Neutral) with 0.
    rewrite (Z.abs_eq iq) by lia.
    split; [lia|]. split; [lia|]. split; [lia|]. split; [lia|]. split; nia.
  - assert (Hei : 0 <= pi_entry i <= P) by (destruct sd; exact He).
    split; [lia|]. split; [destruct sd; unfold entry_in; cbn; lia|]. exists (pi_qty i).
    destruct (margin_weight c P (pi_qty i) (pi_entry i) V ltac:(lia) Hei) as [M1 M2].
    destruct (margin_weight c P (q - pi_qty i) p V ltac:(lia) Hp) as [N1 N2].
    assert (E1 : forall x y z, pq (mk_pos (side_inverted sd) {| pi_qty := x; pi_entry := y; pi_fees := z |}) = Z.abs x) by (intros; unfold pq; destruct sd; cbn; lia).
    assert (E2 : forall x y z, due (mk_pos (side_inverted sd) {| pi_qty := x; pi_entry := y; pi_fees := z |}) = z) by (destruct sd; reflexivity).
    assert (E3 : forall x y z, pq (mk_pos sd {| pi_qty := x; pi_entry := y; pi_fees := z |}) = Z.abs x) by (intros; unfold pq; destruct sd; cbn; lia).
    assert (E4 : forall x y z, due (mk_pos sd {| pi_qty := x; pi_entry := y; pi_fees := z |}) = z) by (destruct sd; reflexivity).
    pose proof (pnl_weight c P (pi_entry i) p (dir (negb (is_buy sd)) (pi_qty i)) Hs Hei Hp) as Pn.
    replace (Z.abs (dir (negb (is_buy sd)) (pi_qty i))) with (pi_qty i) in Pn by (unfold dir; destruct sd; cbn; lia).
    set (pr := pnl_pure _ _ _ _ _) in *. clearbody pr.
    destruct i as [iq ie ifs]; cbn [pi_qty pi_entry pi_fees] in *.
    rewrite !E1, !E2, !E3, !E4, margin_own, settle_own, transfer_debits, settle_debits by discriminate.
    rewrite (Z.abs_eq (q - iq)), (Z.abs_eq iq) by lia.
    split; [lia|]. split; [lia|]. split; [lia|]. split; [lia|].
    assert (c_scale c * pr <= weight c P * iq) by nia.
    assert (0 <= c_scale c * Z.max 0 (ifs + f)) by nia.
    assert (0 <= c_scale c * margin_of c (q - iq) p) by nia.
    split; [nia|lia].
Qed.

(** ** Order margin *)
Definition load (b : list limit_order) : Z := sumZ (map lo_rem b).

Lemma load_app b o : load (b ++ [o]) = load b + lo_rem o.
Proof. unfold load, sumZ in *. induction b as [|x b IH]; cbn in *; lia. Qed.

Lemma sumZ_perm l l' : Permutation l l' -> sumZ l = sumZ l'.
Proof. unfold sumZ. induction 1; cbn in *; lia. Qed.

Lemma load_perm b b' : Permutation b b' -> load b = load b'.
Proof. intros H. apply sumZ_perm, Permutation_map, H. Qed.

Lemma load_nonneg b : good_book b -> 0 <= load b.
Proof.
  unfold load, sumZ in *. intros H. induction b as [|o b IH]; cbn in *; [lia|].
  pose proof (H o (or_introl eq_refl)). specialize (IH (fun x Hx => H x (or_intror Hx))). lia.
Qed.

Lemma load_member b o : good_book b -> In o b -> lo_rem o <= load b.
Proof.
  intros H. induction b as [|x b IH]; cbn [In]; [contradiction|].
  assert (Hb : good_book b) by (intros y Hy; apply H; right; assumption).
  pose proof (load_nonneg b Hb). pose proof (H x (or_introl eq_refl)). unfold load, sumZ in *. cbn.
  intros [->|Hi]; [lia|]. specialize (IH Hb Hi). lia.
Qed.

Lemma load_upd b o o' :
  NoDup (ids b) -> In o b -> lo_id o' = lo_id o -> load (map (upd (lo_id o) o') b) = load b + lo_rem o' - lo_rem o.
Proof.
  intros Hn Ho He. unfold load, sumZ in *. induction b as [|x b IH]; cbn [In] in *; [contradiction|].
  inversion Hn as [|? ? Hx Hn']; subst. cbn [map]. destruct Ho as [->|Ho].
  - rewrite upd_notin by assumption. unfold upd at 1. rewrite Z.eqb_refl. cbn. lia.
  - unfold upd at 1. destruct (Z.eqb_spec (lo_id x) (lo_id o)) as [E|E].
    + exfalso. apply Hx. rewrite E. apply in_map; assumption.
    + specialize (IH Hn' Ho). cbn in *. lia.
Qed.

Definition priced (P : Z) (b : list limit_order) : Prop := forall o, In o b -> lo_price o <= P.

Lemma cost_weight c P l :
  0 < c_scale c -> (forall x, In x l -> 0 < fst x <= P /\ 0 <= snd x) ->
  0 <= cost (c_kind c) (c_scale c) l /\ c_scale c * cost (c_kind c) (c_scale c) l <= weight c P * sumZ (map snd l).
Proof.
  intros Hs H. induction l as [|x l IH]; [cbn; lia|].
  destruct (H x (or_introl eq_refl)) as [H1 H2]. destruct (IH (fun y Hy => H y (or_intror Hy))) as [I1 I2].
  destruct (conv_weight c P (snd x) (fst x) Hs H2 ltac:(lia)) as [C1 C2].
  rewrite cost_cons. change (value (c_kind c) (c_scale c) (snd x) (fst x)) with (conv (c_kind c) (c_scale c) (snd x) (fst x)).
  cbn [map sumZ fold_right]. change (fold_right Z.add 0 (map snd l)) with (sumZ (map snd l)).
  split; [lia|]. rewrite !Z.mul_add_distr_l. lia.
Qed.

Lemma hedge_sum h l : 0 <= h -> (forall x, In x l -> 0 <= snd x) -> sumZ (map snd (hedge h l)) <= sumZ (map snd l).
Proof.
  unfold sumZ. revert h. induction l as [|[p q] l IH]; intros h Hh Hl; [reflexivity|].
  pose proof (Hl _ (or_introl eq_refl)) as H0. cbn [snd] in H0.
  specialize (IH (h - Z.min q h) ltac:(lia) (fun y Hy => Hl y (or_intror Hy))). cbn in *. lia.
Qed.

Lemma pairs_sum sd b : good_book b -> 0 <= sumZ (map snd (pairs sd b)) <= load b.
Proof.
  intros H. induction b as [|o b IH]; [cbn; lia|].
  assert (Hb : good_book b) by (intros y Hy; apply H; right; assumption). specialize (IH Hb).
  pose proof (H o (or_introl eq_refl)). unfold load, pairs, sumZ in *. cbn [flat_map map]. destruct (side_eq_dec (lo_side o) sd); cbn in *; lia.
Qed.

Lemma sorted_sum sd b : sumZ (map snd (sorted_side sd b)) = sumZ (map snd (pairs sd b)).
Proof.
  apply sumZ_perm, Permutation_map. destruct (sorted_arranged sd b) as [Hp _].
  first [exact Hp | apply Permutation_sym; exact Hp].
Qed.

Lemma side_weight c P sd b h :
  0 < c_scale c -> 0 <= weight c P -> good_book b -> priced P b -> 0 <= h ->
  0 <= cost (c_kind c) (c_scale c) (hedge h (sorted_side sd b)) /\
  c_scale c * cost (c_kind c) (c_scale c) (hedge h (sorted_side sd b)) <= weight c P * load b.
Proof.
  intros Hs HP Hg Hp Hh. pose proof (good_pos_list sd b Hg) as Hl.
  assert (HpL : forall x, In x (sorted_side sd b) -> fst x <= P).
  { intros x Hx. destruct (sorted_arranged sd b) as [Hperm _].
    assert (Hx' : In x (pairs sd b)) by (eapply Permutation_in; [|exact Hx]; first [exact Hperm | apply Permutation_sym; exact Hperm]).
    apply pairs_in in Hx' as (o & Ho & _ & ->). apply Hp; assumption. }
  destruct (cost_weight c P (hedge h (sorted_side sd b)) Hs) as [C1 C2].
  { intros x Hx. pose proof (hedge_bounds _ _ _ Hh Hl Hx). destruct (hedge_fst _ _ _ Hx) as (y & Hy & E).
    specialize (HpL y Hy). lia. }
  split; [assumption|]. pose proof (hedge_sum h (sorted_side sd b) Hh) as S1.
  rewrite sorted_sum in S1. pose proof (pairs_sum sd b Hg).
  assert (sumZ (map snd (hedge h (sorted_side sd b))) <= load b).
  { etransitivity; [apply S1|lia]. intros x Hx. apply Hl in Hx. lia. }
  nia.
Qed.

Lemma req_weight c P b pos :
  valid_config c -> 0 <= weight c P -> good_book b -> priced P b ->
  0 <= req c b pos /\ c_scale c * req c b pos <= weight c P * load b.
Proof.
  intros V HP Hg Hp. pose proof (vc_scale _ V) as Hs. split; [apply req_ge0; assumption|].
  unfold req, requirement.
  destruct (side_weight c P Buy b (Z.max 0 (- position_quantity pos)) Hs HP Hg Hp ltac:(lia)) as [A1 A2].
  destruct (side_weight c P Sell b (Z.max 0 (position_quantity pos)) Hs HP Hg Hp ltac:(lia)) as [B1 B2].
  set (x := Z.max _ (cost _ _ _)). assert (Hx : 0 <= x /\ c_scale c * x <= weight c P * load b) by (subst x; nia).
  pose proof (dmul_le (c_scale c) x (ct_imr (c_spec c)) Hs (proj1 Hx) (vc_imr _ V)) as D. unfold dmul in D. nia.
Qed.

(** ** The bounds of a state *)
Definition order_in (P V : Z) (o : limit_order) : Prop :=
  lo_price o <= P /\ lo_rem o + lo_filled_qty o <= V /\
  match lo_filled o with Unfilled => True | FilledQ cum avg => 0 < cum /\ 0 <= avg <= P end.
Definition turn (t : tracker) : Z := tk_buy_volume t + tk_sell_volume t.
Definition nonneg (a : accounts) : Prop := forall id, 0 <= ta_debits (get_account a id) /\ 0 <= ta_credits (get_account a id).
Definition counts (t : tracker) : list Z :=
  [tk_sub_limit t; tk_cancelled t; tk_fill_events t; tk_fully_filled t; tk_sub_market t; tk_filled_market t].

(** The money: [V] contracts were ordered in [n] limit orders, no reservation is above [G]. *)
Record Money (c : config) (P G V n : Z) (book : list limit_order) (pos : position) (acc : accounts) (t : tracker) : Prop := {
  mo_book : forall o, In o book -> order_in P V o;
  mo_entry : entry_in P pos;
  mo_size : pq pos + load book <= V;
  mo_due : Z.abs (due pos) <= turn t;
  mo_buy : 0 <= tk_buy_volume t;
  mo_sell : 0 <= tk_sell_volume t;
  mo_turn : c_scale c * turn t + weight c P * (pq pos + 2 * load book) <= weight c P * (2 * V);
  mo_own : c_scale c * own acc + weight c P * (2 * (pq pos + load book)) <= c_scale c * c_start c + weight c P * (2 * V);
  mo_om : c_scale c * bal acc ORDER_MARGIN <= G;
  mo_phi : c_scale c * debit_sum acc + c_scale c * bal acc ORDER_MARGIN + c_scale c * Z.max 0 (due pos)
           + weight c P * (3 * pq pos + 5 * load book) <= c_scale c * c_start c + weight c P * (5 * V) + 2 * n * G;
  mo_acc : nonneg acc;
  mo_sums : debit_sum acc = credit_sum acc
}.
Definition bd_money c P G V n e := Money c P G V n (ex_om e) (ex_pos e) (ex_acc e) (ex_trk e).

Record Count (N : Z) (e : exchange) : Prop := {
  cn_trk : forall x, In x (counts (ex_trk e)) -> 0 <= x <= N;
  cn_next : 0 <= ex_next_id e <= N;
  cn_step : 0 <= ms_step (ex_ms e) <= N
}.

Record Feed (c : config) (P T : Z) (e : exchange) : Prop := {
  fd_bid : price_in P (ms_bid (ex_ms e));
  fd_ask : price_in P (ms_ask (ex_ms e));
  fd_interval : tg_interval (ex_trig e) = c_sample_s c * 1000000000;
  fd_last : tg_init (ex_trig e) = false -> Z.abs (tg_last (ex_trig e)) <= T
}.

Lemma weight_nonneg c P : 0 <= P -> 0 <= weight c P.
Proof. unfold weight. destruct (c_kind c); nia. Qed.

Lemma tpath_nonneg a b : tpath a b -> nonneg a -> nonneg b.
Proof. intros H N id. pose proof (tpath_mono a b id H). specialize (N id). lia. Qed.

Lemma pq_nonneg p : 0 <= pq p.
Proof. unfold pq; lia. Qed.

(** ** Fills and market orders *)
Definition rate_ok (c : config) : Prop :=
  Z.abs (ct_maker (c_spec c)) <= c_scale c /\ Z.abs (ct_taker (c_spec c)) <= c_scale c.

Lemma after_fill_in c P V o q :
  valid_config c -> order_in P V o -> 0 < lo_price o -> 0 < q <= lo_rem o -> order_in P V (after_fill (c_scale c) o q).
Proof.
  intros Vc (H1 & H2 & H3) Hp Hq. pose proof (vc_scale _ Vc). unfold order_in, after_fill, lo_filled_qty in *. cbn.
  destruct (lo_filled o) as [|cum avg].
  - repeat split; lia.
  - assert (W : 0 <= weighted (c_scale c) avg cum (lo_price o) q <= P) by (apply weighted_range; lia).
    repeat split; lia.
Qed.

Lemma fill_book c b b' o q :
  NoDup (ids b) -> In o b -> 0 < q <= lo_rem o ->
  (if q =? lo_rem o then om_remove b (ByOrderId (lo_id o)) = Done b' else om_update (c_max c) b (after_fill (c_scale c) o q) = Done (b', Ok tt)) ->
  load b' = load b - q /\
  (forall x, In x b' -> In x b \/ (x = after_fill (c_scale c) o q /\ q <> lo_rem o)).
Proof.
  intros Hn Ho Hq H. destruct (Z.eqb_spec q (lo_rem o)).
  - apply om_remove_id_done in H as [x H]. pose proof (remove_id_spec _ _ _ _ H) as (E1 & E2 & Hp & _).
    assert (x = o) by (eapply nodup_ids_inj; eassumption). subst x.
    split.
    + rewrite (load_perm _ _ Hp). unfold load, sumZ. cbn. lia.
    + intros y Hy. left. eapply Permutation_in; [apply Permutation_sym; exact Hp | right; assumption].
  - apply om_update_done in H as [_ [(Hg & _)|(old & Hg & -> & _)]].
    + exfalso. apply get_by_id_none in Hg. apply Hg. cbn. apply in_map; assumption.
    + rewrite replace_by_id_map by assumption. split.
      * change (lo_id (after_fill (c_scale c) o q)) with (lo_id o). rewrite load_upd by (assumption || reflexivity). cbn. lia.
      * intros y Hy. apply in_map_iff in Hy as (z & <- & Hz). unfold upd. destruct (lo_id z =? _); auto.
Qed.

Lemma fe_book c u e e' o q :
  NoDup (ids (ex_om e)) -> In o (ex_om e) -> fill_effect c u e e' o q ->
  load (ex_om e') = load (ex_om e) - q /\
  (forall x, In x (ex_om e') -> In x (ex_om e) \/ x = after_fill (c_scale c) o q).
Proof.
  intros Hn Ho F. destruct (fill_book c _ _ o q Hn Ho (fe_q _ _ _ _ _ _ F) (fe_om _ _ _ _ _ _ F)) as [H1 H2].
  split; [assumption|]. intros x Hx. destruct (H2 x Hx) as [?|[? _]]; auto.
Qed.

Lemma trk_fill_fields c t o q :
  turn (trk_fill c t o q) = turn t + conv (c_kind c) (c_scale c) q (lo_price o) /\
  (0 <= conv (c_kind c) (c_scale c) q (lo_price o) ->
   tk_buy_volume t <= tk_buy_volume (trk_fill c t o q) /\ tk_sell_volume t <= tk_sell_volume (trk_fill c t o q)).
Proof. unfold trk_fill, turn. destruct (lo_side o); cbn; lia. Qed.

Ltac mulpos := apply Z.mul_nonneg_nonneg; lia.

Lemma fe_money c P G V n u e e' o q :
  valid_config c -> rate_ok c -> Mid c e -> In o (ex_om e) -> fill_effect c u e e' o q -> bd_money c P G V n e ->
  bd_money c P G V n e'.
Proof.
  intros Vc [Rm _] M Ho F B. unfold bd_money in *. pose proof (vc_scale _ Vc) as Hs.
  destruct (mi_good _ _ M o Ho) as [Hr Hp]. destruct (mo_book _ _ _ _ _ _ _ _ _ B o Ho) as (Hpr & Ht & Hf).
  pose proof (fe_q _ _ _ _ _ _ F) as Hq. destruct (fe_book _ _ _ _ _ _ (mi_nodup _ _ M) Ho F) as [Hl Hin].
  pose proof (weight_nonneg c P ltac:(lia)) as HP.
  destruct (conv_weight c P q (lo_price o) Hs ltac:(lia) ltac:(lia)) as [C1 C2].
  pose proof (fee_weight c P q (lo_price o) _ Hs Rm ltac:(lia) ltac:(lia)) as Hfee.
  pose proof (fe_om_bal _ _ _ _ _ _ Vc (mi_good _ _ M) Hp (mi_pos _ _ M) F) as Hom.
  pose proof (fe_tpath _ _ _ _ _ _ F) as Tp.
  destruct (fe_acc _ _ _ _ _ _ F) as (acc1 & new & Hcp & _ & _ & Hacc).
  pose proof (cp_om _ _ _ _ _ _ _ _ _ Hcp) as Hom1.
  assert (Hfw : c_scale c * Z.abs (fee_of c q (lo_price o) (ct_maker (c_spec c))) <= weight c P * q) by (eapply Z.le_trans; [|exact C2]; apply Z.mul_le_mono_nonneg_l; [lia|exact Hfee]).
  assert (Hp1 : 0 <= lo_price o <= P) by lia.
  destruct (cp_bound c P _ _ _ _ _ _ _ _ Vc Hp1 Hfw (mi_pos _ _ M) (mo_entry _ _ _ _ _ _ _ _ _ B) Hcp)
    as (_ & He' & k & K1 & K2 & Kp & Kd & Kphi & Kown).
  set (f := fee_of _ _ _ _) in *. clearbody f. set (v := conv _ _ _ _) in *.
  destruct (trk_fill_fields c (ex_trk e) o q) as [T1 T2]. fold v in T1, T2. specialize (T2 C1). rewrite <- (fe_trk _ _ _ _ _ _ F) in T1, T2.
  assert (A : debit_sum (ex_acc e') + bal (ex_acc e') ORDER_MARGIN = debit_sum acc1 + bal (ex_acc e) ORDER_MARGIN /\
              own (ex_acc e') = own acc1).
  { rewrite Hacc. unfold own. destruct (new <? bal (ex_acc e) ORDER_MARGIN).
    - rewrite transfer_debits, !bal_transfer by discriminate. unfold delta; cbn. lia.
    - lia. }
  destruct A as [A1 A2]. destruct B. constructor.
  - intros x Hx. destruct (Hin x Hx) as [Hx'| ->]; [auto|]. apply after_fill_in; auto.
  - assumption.
  - lia.
  - rewrite T1. unfold due in *. lia.
  - lia.
  - lia.
  - rewrite T1, Hl, Kp. assert (0 <= weight c P * k) by mulpos. lia.
  - rewrite A2, Hl. assert (0 <= weight c P * k) by mulpos. lia.
  - rewrite Hom. eapply Z.le_trans; [apply Z.mul_le_mono_nonneg_l; [lia|apply Z.le_min_l]|assumption].
  - rewrite Hl. assert (0 <= weight c P * k) by mulpos.
    assert (c_scale c * debit_sum (ex_acc e') + c_scale c * bal (ex_acc e') ORDER_MARGIN
            = c_scale c * debit_sum acc1 + c_scale c * bal (ex_acc e) ORDER_MARGIN) by (rewrite <- !Z.mul_add_distr_l, A1; reflexivity).
    lia.
  - eapply tpath_nonneg; eassumption.
  - eapply tpath_sums; eassumption.
Qed.

Lemma me_money c P G V n d e e' o :
  valid_config c -> rate_ok c -> Mid c e -> price_in P (quote_price (ex_ms e) (nm_side o)) ->
  market_effect c e e' o -> bd_money c P G V n e ->
  (d = nm_qty o \/ (d = 0 /\ position_quantity (ex_pos e') = 0 /\ nm_qty o = pq (ex_pos e))) ->
  bd_money c P G (V + d) n e'.
Proof.
  intros Vc [_ Rt] M Hpr F B Hd. unfold bd_money in *. pose proof (vc_scale _ Vc) as Hs.
  pose proof (me_qty _ _ _ _ F) as Hq. unfold price_in in Hpr.
  pose proof (weight_nonneg c P ltac:(lia)) as HP. pose proof (me_cp _ _ _ _ F) as Hcp.
  pose proof (me_trk _ _ _ _ F) as Ht. pose proof (market_effect_tpath _ _ _ _ F) as Tp.
  set (p := quote_price (ex_ms e) (nm_side o)) in *. set (q := nm_qty o) in *.
  destruct (conv_weight c P q p Hs ltac:(lia) ltac:(lia)) as [C1 C2].
  pose proof (fee_weight c P q p _ Hs Rt ltac:(lia) ltac:(lia)) as Hfee.
  pose proof (cp_om _ _ _ _ _ _ _ _ _ Hcp) as Hom.
  assert (Hfw : c_scale c * Z.abs (fee_of c q p (ct_taker (c_spec c))) <= weight c P * q) by (eapply Z.le_trans; [|exact C2]; apply Z.mul_le_mono_nonneg_l; [lia|exact Hfee]).
  destruct (cp_bound c P _ _ _ _ _ _ _ _ Vc Hpr Hfw (mi_pos _ _ M) (mo_entry _ _ _ _ _ _ _ _ _ B) Hcp)
    as (_ & He' & k & K1 & K2 & Kp & Kd & Kphi & Kown).
  set (f := fee_of _ _ _ _) in *. clearbody f. set (v := conv _ _ _ _) in *.
  assert (T1 : turn (ex_trk e') = turn (ex_trk e) + v) by (rewrite Ht; unfold trk_market, turn; fold v; destruct (nm_side o); cbn; lia).
  assert (T2 : tk_buy_volume (ex_trk e) <= tk_buy_volume (ex_trk e') /\ tk_sell_volume (ex_trk e) <= tk_sell_volume (ex_trk e'))
    by (rewrite Ht; unfold trk_market; fold v; destruct (nm_side o); cbn; lia).
  assert (Hk : q - k <= d).
  { destruct Hd as [->|(-> & Z1 & Z2)]; [lia|]. assert (pq (ex_pos e') = 0) by (unfold pq; lia). lia. }
  assert (0 <= d) by lia.
  rewrite (me_om _ _ _ _ F). pose proof (pq_nonneg (ex_pos e)). pose proof (load_nonneg _ (mi_good _ _ M)).
  assert (W1 : weight c P * (q - k) <= weight c P * d) by (apply Z.mul_le_mono_nonneg_l; assumption). assert (0 <= weight c P * k) by mulpos.
  destruct B. constructor.
  - intros x Hx. specialize (mo_book0 x Hx). unfold order_in in *. intuition lia.
  - assumption.
  - lia.
  - rewrite T1. unfold due in *. lia.
  - lia.
  - lia.
  - rewrite T1, Kp. lia.
  - lia.
  - rewrite Hom. assumption.
  - rewrite Hom. lia.
  - eapply tpath_nonneg; eassumption.
  - eapply tpath_sums; eassumption.
Qed.

(** ** Reserving and releasing margin *)
Lemma cancel_money c P G V n e e' b o :
  valid_config c -> Inv c e -> 0 <= P -> cancel_effect c e e' b o -> bd_money c P G V n e -> bd_money c P G V n e'.
Proof.
  intros Vc I HP0 C B. unfold bd_money in *. pose proof (vc_scale _ Vc) as Hs. pose proof (weight_nonneg c P HP0) as HP.
  destruct (remove_with_spec _ _ _ _ (ce_active _ _ _ _ _ C)) as (_ & Hin & Hp).
  pose proof (inv_good _ _ I o Hin) as [Hr _].
  assert (Hl : load (ex_om e') + lo_rem o = load (ex_om e)).
  { rewrite (inv_books _ _ I), (ce_books _ _ _ _ _ C), (load_perm _ _ Hp). unfold load, sumZ; cbn; lia. }
  pose proof (cancel_effect_tpath _ _ _ _ _ C) as Tp.
  destruct (ce_acc _ _ _ _ _ C) as (new & _ & Hle & Hacc).
  assert (A : debit_sum (ex_acc e') + bal (ex_acc e') ORDER_MARGIN = debit_sum (ex_acc e) + bal (ex_acc e) ORDER_MARGIN /\
              own (ex_acc e') = own (ex_acc e) /\ bal (ex_acc e') ORDER_MARGIN <= bal (ex_acc e) ORDER_MARGIN).
  { rewrite Hacc. unfold own. destruct (Z.ltb_spec new (bal (ex_acc e) ORDER_MARGIN)).
    - rewrite transfer_debits, !bal_transfer by discriminate. unfold delta; cbn. lia.
    - lia. }
  assert (Ht : turn (log_limit_order_cancellation (ex_trk e)) = turn (ex_trk e)) by (unfold turn; cbn; lia).
  destruct A as (A1 & A2 & A3). rewrite (ce_pos _ _ _ _ _ C), (ce_trk _ _ _ _ _ C).
  assert (0 <= weight c P * lo_rem o) by mulpos.
  assert (Hlw : weight c P * load (ex_om e) = weight c P * load (ex_om e') + weight c P * lo_rem o) by (rewrite <- Hl; ring).
  assert (c_scale c * debit_sum (ex_acc e') + c_scale c * bal (ex_acc e') ORDER_MARGIN
          = c_scale c * debit_sum (ex_acc e) + c_scale c * bal (ex_acc e) ORDER_MARGIN) by (rewrite <- !Z.mul_add_distr_l, A1; reflexivity).
    destruct B. constructor.
  - intros x Hx. apply mo_book0. rewrite (inv_books _ _ I). eapply Permutation_in; [apply Permutation_sym; exact Hp|].
    right. rewrite <- (ce_books _ _ _ _ _ C). assumption.
  - assumption.
  - lia.
  - rewrite Ht. assumption.
  - cbn. lia.
  - cbn. lia.
  - rewrite Ht. lia.
  - rewrite A2. lia.
  - eapply Z.le_trans; [apply Z.mul_le_mono_nonneg_l; [lia|exact A3]|assumption].
  - lia.
  - eapply tpath_nonneg; eassumption.
  - eapply tpath_sums; eassumption.
Qed.

Lemma money_more c P G V n d m book pos acc t t' :
  0 <= weight c P -> 0 <= G -> 0 <= d -> 0 <= m -> Money c P G V n book pos acc t ->
  tk_buy_volume t' = tk_buy_volume t -> tk_sell_volume t' = tk_sell_volume t ->
  Money c P G (V + d) (n + m) book pos acc t'.
Proof.
  intros HP HG Hd Hm B E1 E2. assert (0 <= weight c P * d) by mulpos. assert (0 <= m * G) by mulpos.
  destruct B. unfold turn in *. constructor; unfold turn; rewrite ?E1, ?E2; try assumption; try lia.
  intros x Hx. specialize (mo_book0 x Hx). unfold order_in in *. intuition lia.
Qed.

Lemma append_money c P G V n e e' o :
  valid_config c -> Sound c e -> 0 <= P -> c_scale c * c_start c + weight c P * (2 * (V + lo_rem o)) <= G ->
  ex_om e' = ex_om e ++ [o] -> 0 < lo_price o <= P -> 0 < lo_rem o -> lo_filled o = Unfilled ->
  append_effect c e e' o -> bd_money c P G V n e -> bd_money c P G (V + lo_rem o) (n + 1) e'.
Proof.
  intros Vc S HP0 HG Hbook Hpr Hrem Hunf A B. unfold bd_money in *. pose proof (vc_scale _ Vc) as Hs.
  pose proof (weight_nonneg c P HP0) as HP. pose proof (vc_start _ Vc) as Hst.
  pose proof (sound_mid _ _ S) as M. pose proof (load_nonneg _ (mi_good _ _ M)) as HL. pose proof (pq_nonneg (ex_pos e)) as Hpq.
  assert (HV : 0 <= V) by (destruct B; lia). pose proof (so_om _ _ S) as Hom0.
  assert (Hgood : good_book (ex_om e')).
  { rewrite Hbook. intros x Hx. apply in_app_or in Hx as [Hx|[<-|[]]]; [apply (mi_good _ _ M x Hx) | lia]. }
  assert (Hpriced : priced P (ex_om e')).
  { rewrite Hbook. intros x Hx. apply in_app_or in Hx as [Hx|[<-|[]]]; [|lia]. apply (mo_book _ _ _ _ _ _ _ _ _ B x Hx). }
  rewrite (ae_pos _ _ _ _ A), (ae_trk _ _ _ _ A). destruct (ae_acc _ _ _ _ A) as (new & Hnew & Hacc).
  rewrite om_eq in Hnew by (assumption || apply (mi_pos _ _ M)). injection Hnew as <-.
  destruct (req_weight c P (ex_om e') (ex_pos e) Vc HP Hgood Hpriced) as [R1 R2].
  set (new := req c (ex_om e') (ex_pos e)) in *. clearbody new.
  pose proof (load_app (ex_om e) o) as Hload. rewrite <- Hbook in Hload.
  assert (0 <= c_scale c * c_start c) by mulpos. assert (0 <= weight c P * V) by mulpos.
  assert (0 <= weight c P * lo_rem o) by mulpos. assert (HG0 : 0 <= G) by lia.
  assert (0 <= weight c P * pq (ex_pos e)) by mulpos. assert (0 <= weight c P * load (ex_om e)) by mulpos.
  assert (weight c P * load (ex_om e') = weight c P * load (ex_om e) + weight c P * lo_rem o) by (rewrite Hload; ring).
  assert (weight c P * (pq (ex_pos e) + load (ex_om e)) <= weight c P * V) by (apply Z.mul_le_mono_nonneg_l; [assumption|apply (mo_size _ _ _ _ _ _ _ _ _ B)]).
  assert (Rn : c_scale c * new <= G). { destruct B. lia. }
  assert (Hown : c_scale c * own (ex_acc e) <= G). { destruct B. lia. }
  assert (Tp : nonneg (ex_acc e') /\ debit_sum (ex_acc e') = credit_sum (ex_acc e')).
  { destruct B. destruct Hacc as [[_ ->]|(Hne & -> & _)]; [auto|].
    assert (Tp : tpath (ex_acc e) (transfer_pure (ex_acc e) ORDER_MARGIN WALLET (Z.abs (new - bal (ex_acc e) ORDER_MARGIN))))
      by (apply tpath_one; [lia|discriminate]).
    split; [eapply tpath_nonneg; eassumption | eapply tpath_sums; eassumption]. }
  destruct Tp as [Tp1 Tp2].
  assert (X : own (ex_acc e') = own (ex_acc e) /\ c_scale c * bal (ex_acc e') ORDER_MARGIN <= G /\
    c_scale c * debit_sum (ex_acc e') + c_scale c * bal (ex_acc e') ORDER_MARGIN
    <= c_scale c * debit_sum (ex_acc e) + c_scale c * bal (ex_acc e) ORDER_MARGIN + 2 * G).
  { destruct Hacc as [(-> & ->)|(Hne & Hacc & Hw & _)].
    - repeat split; lia.
    - set (amt := Z.abs (new - bal (ex_acc e) ORDER_MARGIN)) in *.
      assert (O1 : bal (ex_acc e') ORDER_MARGIN = bal (ex_acc e) ORDER_MARGIN + amt)
        by (rewrite Hacc, bal_transfer by discriminate; unfold delta; cbn; lia).
      assert (O2 : bal (ex_acc e') WALLET = bal (ex_acc e) WALLET - amt)
        by (rewrite Hacc, bal_transfer by discriminate; unfold delta; cbn; lia).
      assert (O3 : debit_sum (ex_acc e') = debit_sum (ex_acc e) + amt) by (rewrite Hacc, transfer_debits by discriminate; reflexivity).
      assert (Hamt : c_scale c * amt <= G).
      { destruct (Z.le_gt_cases (bal (ex_acc e) ORDER_MARGIN) new).
        - assert (amt <= new) by (subst amt; lia). eapply Z.le_trans; [apply Z.mul_le_mono_nonneg_l; [lia|eassumption]|assumption].
        - assert (amt <= bal (ex_acc e) ORDER_MARGIN) by (subst amt; lia).
          eapply Z.le_trans; [apply Z.mul_le_mono_nonneg_l; [lia|eassumption]|apply (mo_om _ _ _ _ _ _ _ _ _ B)]. }
      split; [unfold own; lia|]. split; [|rewrite O1, O3; lia].
      assert (bal (ex_acc e') ORDER_MARGIN <= own (ex_acc e)) by (unfold own in *; lia).
      eapply Z.le_trans; [apply Z.mul_le_mono_nonneg_l; [lia|eassumption]|assumption]. }
  destruct X as (X1 & X2 & X3). set (r := lo_rem o) in *.
  assert (0 <= weight c P * r) by mulpos. assert (0 <= weight c P * pq (ex_pos e)) by mulpos. assert (0 <= weight c P * load (ex_om e)) by mulpos.
  destruct B. constructor; rewrite ?Hload, ?X1.
  - intros x Hx. rewrite Hbook in Hx. apply in_app_or in Hx as [Hx|[<-|[]]].
    + specialize (mo_book0 x Hx). unfold order_in in *. intuition lia.
    + unfold order_in, lo_filled_qty. rewrite Hunf. fold r. lia.
  - assumption.
  - lia.
  - assumption.
  - assumption.
  - assumption.
  - lia.
  - lia.
  - assumption.
  - lia.
  - assumption.
  - assumption.
Qed.

(** ** Counters *)
Lemma counts_add N t a b d e f g x y k :
  (forall z, In z (counts t) -> 0 <= z <= N) -> 0 <= a <= k -> 0 <= b <= k -> 0 <= d <= k -> 0 <= e <= k -> 0 <= f <= k -> 0 <= g <= k ->
  forall z, In z (counts (tracker_add t a b d e f g x y)) -> 0 <= z <= N + k.
Proof.
  intros H. unfold counts in *. cbn [In tracker_add tk_sub_limit tk_cancelled tk_fill_events tk_fully_filled tk_sub_market tk_filled_market] in *.
  pose proof (H (tk_sub_limit t) ltac:(tauto)). pose proof (H (tk_cancelled t) ltac:(tauto)). pose proof (H (tk_fill_events t) ltac:(tauto)).
  pose proof (H (tk_fully_filled t) ltac:(tauto)). pose proof (H (tk_sub_market t) ltac:(tauto)). pose proof (H (tk_filled_market t) ltac:(tauto)).
  clear H. intros. repeat match goal with H : _ \/ _ |- _ => destruct H as [<-|H] end; try contradiction; lia.
Qed.

Lemma counts_le N N' t : (forall z, In z (counts t) -> 0 <= z <= N) -> N <= N' -> forall z, In z (counts t) -> 0 <= z <= N'.
Proof. intros H Hn z Hz. specialize (H z Hz). lia. Qed.

Lemma count_le N N' e : Count N e -> N <= N' -> Count N' e.
Proof. intros [] H. constructor; [eapply counts_le; eassumption | lia | lia]. Qed.

Lemma fills_counts c u e l e' N :
  fills c u e l e' -> (forall z, In z (counts (ex_trk e)) -> 0 <= z <= N) ->
  forall z, In z (counts (ex_trk e')) -> 0 <= z <= N + Z.of_nat (length l).
Proof.
  intros H. revert N. induction H as [e|e o l e' Hn Hl IH|e o q e1 l e' Hq He Hl IH]; intros N HN.
  - eapply counts_le; [eassumption | cbn; lia].
  - eapply counts_le; [apply IH; eassumption | cbn [length]; lia].
  - eapply counts_le; [apply (IH (N + 1)) | cbn [length]; lia].
    rewrite (fe_trk _ _ _ _ _ _ He). unfold trk_fill, log_limit_order_fill.
    assert (X : forall x y, forall z, In z (counts (tracker_add (tracker_add (ex_trk e) 0 0 1 (if q =? lo_rem o then 1 else 0) 0 0 0 0) 0 0 0 0 0 0 x y)) -> 0 <= z <= N + 1).
    { intros x y. replace (N + 1) with (N + 1 + 0) by lia. apply counts_add; try lia.
      apply counts_add; try lia; [exact HN | destruct (q =? lo_rem o); lia]. }
    destruct (lo_side o); apply X.
Qed.

Lemma fills_money c P G V n u e l e' :
  valid_config c -> rate_ok c -> fills c u e l e' -> Mid c e -> todo_in (ex_om e) l -> bd_money c P G V n e ->
  bd_money c P G V n e'.
Proof.
  intros Vc R. induction 1 as [|e o l e' Hn Hl IH|e o q e1 l e' Hq He Hl IH]; intros M T B; auto.
  - apply IH; [assumption| |assumption]. destruct T as (T1 & T2 & T3). split; [assumption|]. inversion T2; subst.
    split; [assumption|]. intros x Hx; apply T3; right; assumption.
  - destruct T as (T1 & T2 & T3). assert (Ho : In o (ex_om e)) by (apply T3; left; reflexivity).
    destruct (fe_nodup _ _ _ _ _ _ T1 Ho He) as [Hn Hk]. inversion T2; subst.
    apply IH; [eapply fe_mid; eassumption| |eapply fe_money; eassumption]. split; [assumption|]. split; [assumption|].
    intros x Hx. apply Hk; [|apply T3; right; assumption].
    intros E. apply H1. rewrite <- E. apply in_map; assumption.
Qed.

(** ** The calls *)
Record Bd (c : config) (P T G V n N : Z) (e : exchange) : Prop := {
  bd_sound : Sound c e;
  bd_cash : bd_money c P G V n e;
  bd_count : Count N e;
  bd_feed : Feed c P T e
}.

Definition update_in (P T : Z) (u : market_update) : Prop :=
  Z.abs (update_ts u) <= T /\
  forall m, price_in P (ms_bid m) -> price_in P (ms_ask m) ->
  price_in P (ms_bid (update_market_state u m)) /\ price_in P (ms_ask (update_market_state u m)).

Lemma build_in P T L dbg ru u : feed_in P T L ru -> build_update dbg ru = Done u -> update_in P T u.
Proof.
  intros H. destruct ru as [b|t|k|l b f]; cbn [build_update feed_in] in *.
  - intros E; inv. unfold update_in, bba_in in *. cbn. tauto.
  - intros E; inv. unfold update_in in *. cbn. tauto.
  - intros E; inv. unfold update_in in *. cbn. tauto.
  - intros E. apply bind_done in E as (sc & E & E1). inv. unfold smart_candle_new in E. destruct l as [|t0 l]; [discriminate|]. inv.
    destruct H as (Hb & Ht & _). unfold update_in, bba_in in *. cbn - [last]. split; [|tauto].
    destruct (Ht (last (t0 :: l) t0)) as [_ H]; [|exact H].
    destruct (@exists_last _ (t0 :: l) ltac:(discriminate)) as (l2 & x & ->). rewrite last_last. apply in_or_app; right; left; reflexivity.
Qed.

Lemma check_active_bd c P T G V n N e u e' :
  valid_config c -> rate_ok c -> Bd c P T G V n N e -> check_active_orders c e u = Done e' -> Bd c P T G V n (N + 10000) e'.
Proof.
  intros Vc R [S B C F] H. pose proof (check_active_sound _ _ _ _ Vc S H) as S'.
  apply check_active_spec in H as [(_ & ->)|(_ & e1 & act & _ & _ & Hf & _ & -> & _)].
  - constructor; [assumption | assumption | apply (count_le N); [|lia] | ].
    + destruct C. constructor; assumption.
    + destruct F. constructor; assumption.
  - assert (M0 : Mid c (set_updates e [])) by (pose proof (sound_mid _ _ S) as M; destruct M; constructor; cbn; auto).
    assert (T0 : todo_in (ex_om (set_updates e [])) (ex_active e)) by (cbn; apply (inv_todo c e), (so_inv _ _ S)).
    destruct (fills_stable _ _ _ _ _ Hf) as (E1 & E2 & E3 & _ & _). cbn [set_updates ex_ms ex_next_id ex_trig] in *.
    pose proof (inv_len _ _ (so_inv _ _ S)) as Hlen. pose proof (proj2 (vc_max _ Vc)) as Hmax.
    constructor.
    + assumption.
    + exact (fills_money c P G V n u _ _ _ Vc R Hf M0 T0 B).
    + destruct C. constructor; cbn [set_active ex_trk ex_next_id ex_ms]; rewrite ?E1, ?E2; try lia.
      eapply counts_le; [eapply fills_counts; [exact Hf | exact cn_trk0]|lia].
    + destruct F. constructor; cbn [set_active ex_ms ex_trig]; rewrite ?E1, ?E3; assumption.
Qed.

Lemma pre_check_trk c e u :
  counts (ex_trk (pre_check c e u)) = counts (ex_trk e) /\ tk_buy_volume (ex_trk (pre_check c e u)) = tk_buy_volume (ex_trk e) /\
  tk_sell_volume (ex_trk (pre_check c e u)) = tk_sell_volume (ex_trk e).
Proof. unfold pre_check. cbn [set_ms set_trk ex_trig]. destruct (should_trigger (ex_trig e) (update_ts u)) as [tr []]; cbn; auto. Qed.

Lemma trigger_in (T : Z) t ts : 0 <= tg_interval t -> Z.abs ts <= T ->
  (tg_init t = false -> Z.abs (tg_last t) <= T) ->
  tg_interval (fst (should_trigger t ts)) = tg_interval t /\
  (tg_init (fst (should_trigger t ts)) = false -> Z.abs (tg_last (fst (should_trigger t ts))) <= T).
Proof.
  intros Hi Ht Hl. unfold should_trigger. destruct (tg_init t) eqn:E; cbn; [auto|].
  destruct (Z.leb_spec (tg_last t + tg_interval t) ts); cbn; [|rewrite E; auto]. split; [reflexivity|].
  specialize (Hl eq_refl). lia.
Qed.

Lemma pre_check_bd c P T G V n N e u :
  0 <= c_sample_s c -> Bd c P T G V n N e -> update_in P T u -> Bd c P T G V n (N + 1) (pre_check c e u).
Proof.
  intros Hi [S B C F] [Ht Hu]. destruct (pre_check_fields c e u) as (E1 & E2 & E3 & E4 & E5 & E6 & E7 & E8).
  destruct (pre_check_trk c e u) as (K1 & K2 & K3). constructor.
  - apply pre_check_sound; assumption.
  - unfold bd_money in *. rewrite E1, E2, E4. destruct B. unfold turn in *. constructor; unfold turn; rewrite ?K2, ?K3; assumption.
  - destruct C. constructor; rewrite ?E5, ?E7, ?K1; cbn; try lia. eapply counts_le; [eassumption|lia].
  - destruct F. destruct (Hu _ fd_bid0 fd_ask0). destruct (trigger_in T (ex_trig e) (update_ts u)) as [I1 I2]; [lia|assumption|assumption|].
    constructor; rewrite ?E7, ?E8; cbn; try assumption. congruence.
Qed.

Lemma me_bd c P T G V n N d e e' o :
  valid_config c -> rate_ok c -> Bd c P T G V n N e -> market_effect c e e' o ->
  (d = nm_qty o \/ (d = 0 /\ position_quantity (ex_pos e') = 0 /\ nm_qty o = pq (ex_pos e))) ->
  Bd c P T G (V + d) n (N + 1) e'.
Proof.
  intros Vc R [S B C F] M Hd. pose proof (sound_mid _ _ S) as Mi.
  assert (Hq : price_in P (quote_price (ex_ms e) (nm_side o))) by (destruct F; unfold quote_price; destruct (nm_side o); assumption).
  constructor.
  - eapply market_effect_sound; eassumption.
  - eapply me_money; eassumption.
  - destruct C. constructor; rewrite ?(me_next _ _ _ _ M), ?(me_ms _ _ _ _ M); try lia.
    rewrite (me_trk _ _ _ _ M). unfold trk_market, log_market_order_fill, log_market_order_submission.
    assert (X : forall x y, forall z, In z (counts (tracker_add (tracker_add (tracker_add (ex_trk e) 0 0 0 0 1 0 0 0) 0 0 0 0 0 1 0 0) 0 0 0 0 0 0 x y)) -> 0 <= z <= N + 1).
    { intros x y z Hz. unfold counts in *. cbn [In tracker_add tk_sub_limit tk_cancelled tk_fill_events tk_fully_filled tk_sub_market tk_filled_market] in *.
      pose proof (cn_trk0 (tk_sub_limit (ex_trk e)) ltac:(tauto)). pose proof (cn_trk0 (tk_cancelled (ex_trk e)) ltac:(tauto)).
      pose proof (cn_trk0 (tk_fill_events (ex_trk e)) ltac:(tauto)). pose proof (cn_trk0 (tk_fully_filled (ex_trk e)) ltac:(tauto)).
      pose proof (cn_trk0 (tk_sub_market (ex_trk e)) ltac:(tauto)). pose proof (cn_trk0 (tk_filled_market (ex_trk e)) ltac:(tauto)).
      clear cn_trk0. repeat match goal with H : _ \/ _ |- _ => destruct H as [<-|H] end; try contradiction; lia. }
    destruct (nm_side o); apply X.
  - destruct F. constructor; rewrite ?(me_ms _ _ _ _ M), ?(me_trig _ _ _ _ M); assumption.
Qed.

Lemma bd_nonneg c P T G V n N e : Bd c P T G V n N e -> 0 <= V /\ 0 <= P.
Proof.
  intros [S B C F]. pose proof (load_nonneg _ (mi_good _ _ (sound_mid _ _ S))). pose proof (pq_nonneg (ex_pos e)).
  destruct B, F. unfold price_in in *. lia.
Qed.

Lemma bd_le c P T G V n N d m k e e' :
  Bd c P T G V n N e -> 0 <= G -> 0 <= d -> 0 <= m -> 0 <= k -> same_core e e' -> ex_next_id e <= ex_next_id e' <= N + k ->
  tk_buy_volume (ex_trk e') = tk_buy_volume (ex_trk e) -> tk_sell_volume (ex_trk e') = tk_sell_volume (ex_trk e) ->
  (forall z, In z (counts (ex_trk e')) -> 0 <= z <= N + k) -> Bd c P T G (V + d) (n + m) (N + k) e'.
Proof.
  intros B0 HG Hd Hm Hk HC Hn T1 T2 HT. pose proof (bd_nonneg _ _ _ _ _ _ _ _ B0) as [_ HP].
  destruct B0 as [S B C F]. pose proof HC as (E1 & E2 & E3 & E4 & E5 & E6 & E7). constructor.
  - eapply same_core_sound; [eassumption | eassumption | lia].
  - unfold bd_money in *. rewrite E2, E3, E5. eapply money_more; try eassumption. apply weight_nonneg; assumption.
  - destruct C. constructor; rewrite ?E1; try lia. assumption.
  - destruct F. constructor; rewrite ?E1, ?E6; assumption.
Qed.

Lemma liquidate_bd c P T G V n N e e' :
  valid_config c -> rate_ok c -> Bd c P T G V n N e -> liquidate c e = Done e' -> Bd c P T G V n (N + 1) e'.
Proof.
  intros Vc R B H. apply liquidate_spec in H as (o & M & _ & Hc). replace V with (V + 0) by lia.
  eapply me_bd; try eassumption. right. split; [reflexivity|].
  pose proof (cp_qty _ _ _ _ _ _ _ _ _ (me_cp _ _ _ _ M)) as Hq. pose proof (inv_pos _ _ (so_inv _ _ (bd_sound _ _ _ _ _ _ _ _ B))) as Hp.
  unfold pq. destruct (ex_pos e) as [|i|i]; [contradiction| |]; destruct Hc as [E1 E2]; rewrite E1, E2 in *; cbn in *; lia.
Qed.

Lemma submit_limit_bd c P T G V n N e o e' r :
  valid_config c -> Bd c P T G V n N e -> nl_ok o -> nl_price o <= P ->
  c_scale c * c_start c + weight c P * (2 * (V + nl_rem o)) <= G ->
  submit_limit_order c e o = Done (e', r) -> Bd c P T G (V + nl_rem o) (n + 1) (N + 1) e'.
Proof.
  intros Vc B0 Hok HP HG H. pose proof (bd_nonneg _ _ _ _ _ _ _ _ B0) as [HV HP0]. destruct Hok as [Ho1 Ho2].
  pose proof (weight_nonneg c P HP0) as HW. pose proof (vc_scale _ Vc). pose proof (vc_start _ Vc).
  assert (HG0 : 0 <= G). { assert (0 <= c_scale c * c_start c) by mulpos. assert (0 <= weight c P * (2 * (V + nl_rem o))) by mulpos. lia. }
  pose proof (bd_sound _ _ _ _ _ _ _ _ B0) as S. pose proof (bd_count _ _ _ _ _ _ _ _ B0) as C.
  assert (HT : forall z, In z (counts (log_limit_order_submission (ex_trk e))) -> 0 <= z <= N + 1).
  { apply counts_add; try lia. apply (cn_trk _ _ C). }
  pose proof (submit_limit_book _ _ _ _ _ (proj2 (vc_max _ Vc)) (so_inv _ _ S) (conj Ho1 Ho2) H) as [I' Hb].
  pose proof (submit_limit_sound _ _ _ _ _ Vc S (conj Ho1 Ho2) H) as S'.
  apply submit_limit_spec in H. cbv zeta in H.
  assert (Bsub : forall k, 0 <= k <= 1 -> forall d, 0 <= d -> Bd c P T G (V + d) (n + 1) (N + 1) (trk_next e (log_limit_order_submission (ex_trk e)) (ex_next_id e + k))).
  { intros k Hk d Hd. eapply bd_le; try eassumption; try lia.
    - unfold same_core; cbn; tauto.
    - cbn. pose proof (cn_next _ _ C). lia.
    - cbn. lia.
    - cbn. lia. }
  destruct H as [(err & -> & HC & Ht & Hn)|(_ & _ & _ & _ & a & Happ & ->)].
  - assert (Hnn : ex_next_id e' = ex_next_id e \/ ex_next_id e' = ex_next_id e + 1) by (destruct Hn as [(? & _ & -> & _)|(-> & _)]; auto).
    pose proof (cn_next _ _ C). eapply bd_le; try eassumption; try lia; rewrite ?Ht; [cbn; lia | cbn; lia | assumption].
  - destruct a as [[]|err].
    + destruct Hb as [(err & E & _)|(_ & Hact & _)]; [discriminate|]. apply append_spec in Happ.
      set (ord := limit_into_pending o (ex_next_id e) (ms_ts (ex_ms e))) in *.
      set (e1 := trk_next e (log_limit_order_submission (ex_trk e)) (ex_next_id e + 1)) in *.
      assert (B1 : Bd c P T G (V + 0) (n + 0) (N + 1) e1).
      { eapply bd_le; try eassumption; try lia; [unfold same_core; cbn; tauto | cbn; pose proof (cn_next _ _ C); lia | cbn; lia | cbn; lia]. }
      rewrite !Z.add_0_r in B1. destruct B1 as [S1 M1 C1 F1].
      constructor.
      * assumption.
      * replace (nl_rem o) with (lo_rem ord) by reflexivity. eapply append_money with (e := e1); try eassumption; try reflexivity; cbn; try lia.
        rewrite (inv_books _ _ I'), Hact. cbn. rewrite (inv_books _ _ (so_inv _ _ S)). reflexivity.
      * destruct C1. constructor; rewrite ?(ae_trk _ _ _ _ Happ), ?(ae_next _ _ _ _ Happ), ?(ae_ms _ _ _ _ Happ); assumption.
      * destruct F1. constructor; rewrite ?(ae_trig _ _ _ _ Happ), ?(ae_ms _ _ _ _ Happ); assumption.
    + destruct Hb as [(er & E & HC & Hn)|(E & _)]; [|discriminate].
      apply append_spec in Happ as (_ & Happ).
      assert (Ht : ex_trk e' = log_limit_order_submission (ex_trk e)) by (destruct Happ as [(-> & _)|(? & ? & _ & -> & _)]; reflexivity).
      pose proof (cn_next _ _ C). eapply bd_le; try eassumption; try lia; rewrite ?Ht; [cbn; lia | cbn; lia | assumption].
Qed.

Lemma cancel_bd c P T G V n N e e' b o :
  valid_config c -> Bd c P T G V n N e -> cancel_effect c e e' b o -> Bd c P T G V n (N + 1) e'.
Proof.
  intros Vc B0 H. pose proof (bd_nonneg _ _ _ _ _ _ _ _ B0) as [HV HP0]. destruct B0 as [S B C F]. constructor.
  - eapply cancel_effect_sound; eassumption.
  - eapply cancel_money; try eassumption. apply (so_inv _ _ S).
  - destruct C. constructor; rewrite ?(ce_next _ _ _ _ _ H), ?(ce_ms _ _ _ _ _ H); try lia.
    rewrite (ce_trk _ _ _ _ _ H). apply counts_add; try lia. assumption.
  - destruct F. constructor; rewrite ?(ce_trig _ _ _ _ _ H), ?(ce_ms _ _ _ _ _ H); assumption.
Qed.

Lemma cancel_trk c e e' b o : cancel_effect c e e' b o ->
  forall N, (forall z, In z (counts (ex_trk e)) -> 0 <= z <= N) -> forall z, In z (counts (ex_trk e')) -> 0 <= z <= N + 1.
Proof. intros H N HN. rewrite (ce_trk _ _ _ _ _ H). apply counts_add; try lia. assumption. Qed.

Lemma bd_grow c P T G V n N d m k e :
  Bd c P T G V n N e -> 0 <= G -> 0 <= d -> 0 <= m -> 0 <= k -> Bd c P T G (V + d) (n + m) (N + k) e.
Proof.
  intros B HG Hd Hm Hk. pose proof (bd_count _ _ _ _ _ _ _ _ B) as []. eapply bd_le; try eassumption; try reflexivity; try lia.
  - apply same_core_refl.
  - eapply counts_le; [eassumption|lia].
Qed.

Lemma order_filled_nonneg c e o : Inv c e -> In o (ex_active e) -> 0 <= lo_filled_qty o.
Proof. intros I Ho. apply order_ok_filled, (inv_ok _ _ I o Ho). Qed.

Lemma step_bd c P T L G V n N e o e' r :
  valid_config c -> rate_ok c -> 0 <= c_sample_s c -> Bd c P T G V n N e -> call_in P T L o ->
  c_scale c * c_start c + weight c P * (2 * (V + ordered o)) <= G ->
  step c e o = Done (e', r) -> Bd c P T G (V + ordered o) (n + reserves o) (N + 10001) e'.
Proof.
  intros Vc R Hi B Hin HG H. pose proof (bd_nonneg _ _ _ _ _ _ _ _ B) as [HV HP0].
  pose proof (weight_nonneg c P HP0) as HW. pose proof (vc_scale _ Vc). pose proof (vc_start _ Vc).
  assert (Hord : 0 <= ordered o) by (destruct o; cbn; lia). assert (Hres : 0 <= reserves o) by (destruct o; cbn; lia).
  assert (HG0 : 0 <= G). { assert (0 <= c_scale c * c_start c) by mulpos. assert (0 <= weight c P * (2 * (V + ordered o))) by mulpos. lia. }
  assert (Bsame : Bd c P T G (V + ordered o) (n + reserves o) (N + 10001) e) by (apply bd_grow; try assumption; lia).
  destruct o as [ru|sd q uid|sd p q uid|b|id sd p q uid|ru]; cbn [step ordered reserves call_in] in *.
  - apply bind_done in H as (u & Hu & H). apply map_out_done in H as (rr & H & _).
    pose proof (build_in _ _ _ _ _ _ Hin Hu) as Hup. pose proof (pre_check_bd _ _ _ _ _ _ _ _ _ Hi B Hup) as B1.
    apply update_state_spec in H as [_ H]. cbv zeta in H. rewrite !Z.add_0_r.
    destruct (check_maintenance_margin _ _ _ _); destruct H as [_ H].
    + replace (N + 10001) with (N + 1 + 10000) by lia. eapply check_active_bd; eassumption.
    + pose proof (liquidate_bd _ _ _ _ _ _ _ _ _ Vc R B1 H) as B2.
      pose proof (bd_grow _ _ _ _ _ _ _ 0 0 9999 _ B2 HG0 ltac:(lia) ltac:(lia) ltac:(lia)) as B3.
      rewrite !Z.add_0_r in B3. replace (N + 10001) with (N + 1 + 1 + 9999) by lia. assumption.
  - unfold market_new in H. destruct (Z.leb_spec q 0); [inv; assumption|].
    apply map_out_done in H as (rr & H & _). apply submit_market_spec in H. destruct rr.
    + destruct H as [_ M]. pose proof (me_bd _ _ _ _ _ _ _ q _ _ _ Vc R B M (or_introl eq_refl)) as B2.
      pose proof (bd_grow _ _ _ _ _ _ _ 0 0 10000 _ B2 HG0 ltac:(lia) ltac:(lia) ltac:(lia)) as B3.
      rewrite !Z.add_0_r in B3. replace (N + 10001) with (N + 1 + 10000) by lia. rewrite Z.max_r, Z.add_0_r by lia. assumption.
    + destruct H as (C & Ht & Hn). pose proof (bd_count _ _ _ _ _ _ _ _ B) as Cn.
      assert (ex_next_id e' = ex_next_id e \/ ex_next_id e' = ex_next_id e + 1) by (destruct Hn as [(? & _ & _ & ->)|(? & _ & -> & _)]; auto).
      pose proof (cn_next _ _ Cn). eapply bd_le; try eassumption; try lia; rewrite ?Ht; [cbn; lia | cbn; lia|].
      eapply counts_le; [apply (counts_add N _ 0 0 0 0 1 0 0 0 1); try lia; apply (cn_trk _ _ Cn)|lia].
  - unfold limit_new in H. destruct (Z.leb_spec p 0); [inv; assumption|]. destruct (Z.leb_spec q 0); [inv; assumption|].
    apply map_out_done in H as (rr & H & _). rewrite Z.max_r in * by lia.
    assert (Hnl : nl_ok {| nl_uid := uid; nl_side := sd; nl_price := p; nl_rem := q |}) by (split; cbn; lia).
    pose proof (submit_limit_bd _ _ _ _ _ _ _ _ _ _ _ Vc B Hnl Hin HG H) as B2. cbn [nl_rem] in B2.
    pose proof (bd_grow _ _ _ _ _ _ _ 0 0 10000 _ B2 HG0 ltac:(lia) ltac:(lia) ltac:(lia)) as B3.
    rewrite !Z.add_0_r in B3. replace (N + 10001) with (N + 1 + 10000) by lia. assumption.
  - apply map_out_done in H as (rr & H & _). apply cancel_spec in H as [_ H]. destruct rr.
    + pose proof (cancel_bd _ _ _ _ _ _ _ _ _ _ _ Vc B H) as B2.
      pose proof (bd_grow _ _ _ _ _ _ _ 0 0 10000 _ B2 HG0 ltac:(lia) ltac:(lia) ltac:(lia)) as B3.
      replace (N + 10001) with (N + 1 + 10000) by lia. assumption.
    + destruct H as [-> _]; assumption.
  - unfold limit_new in H. destruct (Z.leb_spec p 0); [inv; assumption|]. destruct (Z.leb_spec q 0); [inv; assumption|].
    apply map_out_done in H as (rr & H & _). rewrite Z.max_r in * by lia. apply amend_spec in H.
    destruct (get_by_id (ex_active e) id) as [x|] eqn:Ex; [|destruct H as [-> _]; assumption].
    cbv zeta in H. destruct H as [_ H]. cbn [nl_rem] in H.
    apply get_by_id_in in Ex as [Ex _]. pose proof (order_filled_nonneg _ _ _ (so_inv _ _ (bd_sound _ _ _ _ _ _ _ _ B)) Ex) as Hfq.
    destruct (Z.leb_spec (lo_rem x + (q - (lo_rem x + lo_filled_qty x))) 0).
    + destruct H as [[y C] _]. pose proof (cancel_bd _ _ _ _ _ _ _ _ _ _ _ Vc B C) as B2.
      pose proof (bd_grow _ _ _ _ _ _ _ q 1 10000 _ B2 HG0 ltac:(lia) ltac:(lia) ltac:(lia)) as B3.
      replace (N + 10001) with (N + 1 + 10000) by lia. assumption.
    + destruct H as (e1 & y & C & H). pose proof (cancel_bd _ _ _ _ _ _ _ _ _ _ _ Vc B C) as B2.
      set (lv := lo_rem x + (q - (lo_rem x + lo_filled_qty x))) in *.
      assert (Hnl : nl_ok {| nl_uid := uid; nl_side := sd; nl_price := p; nl_rem := lv |}) by (split; cbn; lia).
      assert (HG2 : c_scale c * c_start c + weight c P * (2 * (V + lv)) <= G).
      { eapply Z.le_trans; [|exact HG]. apply Z.add_le_mono_l. apply Z.mul_le_mono_nonneg_l; [assumption|lia]. }
      pose proof (submit_limit_bd _ _ _ _ _ _ _ _ _ _ _ Vc B2 Hnl Hin HG2 H) as B4. cbn [nl_rem] in B4.
      pose proof (bd_grow _ _ _ _ _ _ _ (q - lv) 0 9999 _ B4 HG0 ltac:(lia) ltac:(lia) ltac:(lia)) as B3.
      replace (N + 10001) with (N + 1 + 1 + 9999) by lia. replace (V + q) with (V + lv + (q - lv)) by lia.
      rewrite Z.add_0_r in B3. assumption.
  - apply bind_done in H as (u & _ & H). apply bind_done in H as (e1 & H & Hx). inv.
    pose proof (check_active_bd _ _ _ _ _ _ _ _ _ _ Vc R B H) as B2.
    pose proof (bd_grow _ _ _ _ _ _ _ 0 0 1 _ B2 HG0 ltac:(lia) ltac:(lia) ltac:(lia)) as B3.
    replace (N + 10001) with (N + 10000 + 1) by lia. assumption.
Qed.

Lemma init_bd c P T e0 G :
  valid_config c -> 0 < P -> c_scale c * c_start c <= G -> init c = Done e0 -> Bd c P T G 0 0 0 e0.
Proof.
  intros Vc HP HG H. pose proof (init_sound _ _ Vc H) as S. pose proof (vc_scale _ Vc). pose proof (vc_start _ Vc).
  apply init_fields in H as (_ & Hms & Ht & Hn & Hp & Ha & Ho & Htr & _ & Hacc).
  unfold tracker_new in Ht. apply bind_done in Ht as (x & _ & Ht). injection Ht as Ht. constructor.
  - assumption.
  - unfold bd_money. rewrite Ho, Hp, Hacc. rewrite <- Ht in *.
    constructor; unfold turn, own, bal, debit_sum, credit_sum, margin_balance_of, pq, due, load, entry_in; cbn; try lia; try (intros o []); try (intros []; cbn; lia).
    unfold net_balance; cbn; lia.
  - constructor; rewrite ?Hn, ?Hms, <- ?Ht; cbn; try lia.
  - constructor; rewrite ?Hms, ?Htr; cbn; unfold price_in; try lia.
Qed.
