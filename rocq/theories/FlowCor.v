(** Position margin of a list of fills; mirrored fills; laws of profit and loss. *)
From Verif Require Import ProofBase BookLemmas StepLemmas FillLemmas OpLemmas Inv Spec SpecBook SpecRules SpecMargin SpecConfig SpecMarket SpecPanic SpecFlow
  LedgerProof FeeProof CoreProof FlowProof OrderProof SoundProof MarketProof LiqProof TotalProof.

(** ** Position margin *)
Lemma posted_app c fs : forall l m f,
  posted c l m (fs ++ [f]) = margin_after c (fold_left (ledger_next c) fs l) (posted c l m fs) f.
Proof. induction fs as [|g fs IH]; intros l m f; cbn; [reflexivity|]. apply IH. Qed.

Lemma cp_margin c acc q p sd f rate pos pos' acc' :
  pos_ok pos -> 0 < q -> cp_case c acc q p sd f pos pos' acc' ->
  bal acc' POSITION_MARGIN =
  margin_after c (ledger_abs acc pos) (bal acc POSITION_MARGIN) {| f_side := sd; f_qty := q; f_price := p; f_rate := rate |}.
Proof.
  intros Hok Hq0 Hcp. unfold margin_after. cbv zeta. pose proof (margin_at_of c q p) as Ha. cbn [f_price f_qty ledger_abs l_qty l_entry].
  destruct Hcp as [Hq Hp Hm _|i Hq Hp Hm|i Hq Hlt Hm|i Hq He Hm _|i Hi Hlt Hp Hm Hm2 Hpm];
  rewrite ?mk_pos_ok in Hok.
  - cbn [position_quantity Z.eqb orb]. rewrite bal_transfer by discriminate. unfold delta; cbn -[Z.sub Z.add Z.opp margin_of bal margin_at]. lia.
  - rewrite bal_transfer by discriminate.
    replace ((position_quantity (mk_pos sd i) =? 0) || (Z.sgn (position_quantity (mk_pos sd i)) =? Z.sgn (signed_qty {| f_side := sd; f_qty := q; f_price := p; f_rate := rate |})))
      with true by (destruct sd; cbn; lia). unfold delta; cbn -[Z.sub Z.add Z.opp margin_of bal margin_at]. lia.
  - rewrite bal_settle. replace (position_quantity (mk_pos (side_inverted sd) i)) with (- signed sd (pi_qty i)) by (destruct sd; cbn; lia).
    match goal with |- context [?b || ?b2] => replace (b || b2) with false by (unfold signed_qty, signed; cbn [f_side f_qty]; destruct sd; lia) end.
    replace (Z.abs (- signed sd (pi_qty i))) with (pi_qty i) by (destruct sd; cbn; lia).
    destruct (Z.leb_spec q (pi_qty i)); [|lia]. replace (position_entry_price (mk_pos (side_inverted sd) i)) with (pi_entry i) by (destruct sd; reflexivity). pose proof (margin_at_of c q (pi_entry i)). lia.
  - rewrite bal_settle. replace (position_quantity (mk_pos (side_inverted sd) i)) with (- signed sd (pi_qty i)) by (destruct sd; cbn; lia).
    match goal with |- context [?b || ?b2] => replace (b || b2) with false by (unfold signed_qty, signed; cbn [f_side f_qty]; destruct sd; lia) end.
    replace (Z.abs (- signed sd (pi_qty i))) with (pi_qty i) by (destruct sd; cbn; lia).
    destruct (Z.leb_spec q (pi_qty i)); [|lia]. replace (position_entry_price (mk_pos (side_inverted sd) i)) with (pi_entry i) by (destruct sd; reflexivity). pose proof (margin_at_of c q (pi_entry i)). lia.
  - rewrite bal_transfer, bal_settle by discriminate. replace (position_quantity (mk_pos (side_inverted sd) i)) with (- signed sd (pi_qty i)) by (destruct sd; cbn; lia).
    match goal with |- context [?b || ?b2] => replace (b || b2) with false by (unfold signed_qty, signed; cbn [f_side f_qty]; destruct sd; lia) end.
    replace (Z.abs (- signed sd (pi_qty i))) with (pi_qty i) by (destruct sd; cbn; lia).
    destruct (Z.leb_spec q (pi_qty i)); [lia|]. pose proof (margin_at_of c (q - pi_qty i) p). unfold delta; cbn [account_id_eq_dec account_id_rec account_id_rect]. cbn -[Z.sub Z.add Z.opp margin_of bal margin_at]. lia.
Qed.

Lemma margin_posted c ops e outs :
  0 <= c_max c <= 10000 -> no_check ops -> history c ops e outs ->
  position_margin_of e = posted c (ledger_start (c_start c)) 0 (reported_fills c ops outs).
Proof.
  intros Hm Hck H.
  assert (G : (fun acc pos fs => bal acc POSITION_MARGIN = posted c (ledger_start (c_start c)) 0 fs /\ ledger_abs acc pos = ledger_of c fs)
    (ex_acc e) (ex_pos e) (reported_fills c ops outs)); [|apply G].
  refine (history_flow c (fun acc pos fs => bal acc POSITION_MARGIN = posted c (ledger_start (c_start c)) 0 fs /\ ledger_abs acc pos = ledger_of c fs) _ _ ops e outs Hm _ Hck H).
  - intros acc q p sd rate pos pos' acc' fs Hq Hp _ Hok Hcp [E1 E2]. split.
    + rewrite posted_app, <- E1. rewrite (cp_margin _ _ _ _ _ _ rate _ _ _ Hok Hq Hcp), E2. reflexivity.
    + rewrite ledger_of_app, <- E2. cbn [fold_left]. exact (cp_ledger _ _ _ _ _ _ _ _ _ _ Hok eq_refl Hcp).
  - intros acc pos fs n Hn [E1 E2]. rewrite !bal_transfer by discriminate.
    rewrite !ledger_abs_om by (try discriminate; tauto). unfold delta; cbn. rewrite !Z.add_0_r || rewrite ?Z.sub_0_r. split; split; try assumption; lia.
  - intros e0 Hi. apply init_fields in Hi as (_ & _ & _ & _ & Hp & _ & _ & _ & _ & Hacc). rewrite Hp, Hacc. split; [reflexivity|].
    unfold ledger_of, ledger_abs, ledger_start, bal, margin_balance_of, net_balance. cbn. f_equal; lia.
Qed.

(** Linear margin of [q] at [p]: rounding error and exactness. *)
Lemma margin_at_bounds c q p :
  c_kind c = Linear -> 0 < c_scale c -> 0 <= ct_imr (c_spec c) <= c_scale c -> 0 <= q -> 0 <= p ->
  0 <= q * p * ct_imr (c_spec c) - margin_at c q p * (c_scale c * c_scale c) <= 2 * (c_scale c * c_scale c).
Proof.
  intros Hk Hs Hi Hq Hp. unfold margin_at, value. rewrite Hk. set (s := c_scale c) in *. set (r := ct_imr (c_spec c)) in *.
  assert (H0 : 0 <= q * p) by nia. set (x := q * p) in *. clearbody x.
  rewrite (Z.quot_div_nonneg x s) by lia. pose proof (Z.div_pos x s ltac:(lia) Hs).
  pose proof (Z.mod_pos_bound x s Hs). pose proof (Z.div_mod x s ltac:(lia)).
  set (v := x / s) in *. set (m := x mod s) in *. clearbody v m. assert (H3 : 0 <= v * r) by nia.
  rewrite Z.quot_div_nonneg by lia. pose proof (Z.mod_pos_bound (v * r) s Hs). pose proof (Z.div_mod (v * r) s ltac:(lia)).
  set (w := v * r / s) in *. set (n := (v * r) mod s) in *. clearbody w n. subst x.
  replace ((s * v + m) * r - w * (s * s)) with (s * (v * r - s * w) + m * r) by ring.
  replace (v * r - s * w) with n by lia. nia.
Qed.
Lemma margin_at_exact c q p :
  c_kind c = Linear -> 0 < c_scale c -> exact_at c q p ->
  margin_at c q p * (c_scale c * c_scale c) = q * p * ct_imr (c_spec c).
Proof.
  intros Hk Hs [[a Ha] [b Hb]]. unfold margin_at, value. rewrite Hk, Ha. rewrite Z.quot_mul by lia.
  set (s := c_scale c) in *. set (r := ct_imr (c_spec c)) in *.
  assert (E : a * r = b * s). { apply (Z.mul_cancel_r _ _ s); [lia|]. rewrite Ha in Hb. lia. }
  rewrite E, Z.quot_mul by lia. rewrite Ha in Hb. lia.
Qed.

Lemma average_bounds s p0 w0 p1 w1 :
  0 < s -> 0 <= p0 -> 0 <= p1 -> 0 <= w0 -> 0 < w1 ->
  0 <= p0 * w0 + p1 * w1 - (w0 + w1) * average s p0 w0 p1 w1 <= 2 * s + (w0 + w1).
Proof.
  intros Hs H0 H1 Hw0 Hw1. unfold average. assert (A : 0 <= p0 * w0) by nia. assert (B : 0 <= p1 * w1) by nia.
  set (x := p0 * w0) in *. set (y := p1 * w1) in *. clearbody x y. set (W := w0 + w1). assert (HW : 0 < W) by lia. clearbody W.
  rewrite !(Z.quot_div_nonneg _ s) by lia.
  pose proof (Z.div_pos x s A Hs). pose proof (Z.div_pos y s B Hs).
  pose proof (Z.mod_pos_bound x s Hs). pose proof (Z.div_mod x s ltac:(lia)).
  pose proof (Z.mod_pos_bound y s Hs). pose proof (Z.div_mod y s ltac:(lia)).
  set (v := x / s) in *. set (m := x mod s) in *. set (v' := y / s) in *. set (m' := y mod s) in *. clearbody v m v' m'.
  assert (0 <= (v + v') * s) by nia. rewrite Z.quot_div_nonneg by lia.
  pose proof (Z.mod_pos_bound ((v + v') * s) W HW). pose proof (Z.div_mod ((v + v') * s) W ltac:(lia)). lia.
Qed.
Lemma average_nonneg s p0 w0 p1 w1 : 0 < s -> 0 <= p0 -> 0 <= p1 -> 0 <= w0 -> 0 < w1 -> 0 <= average s p0 w0 p1 w1.
Proof.
  intros. unfold average. apply Z.quot_pos; [|lia]. apply Z.mul_nonneg_nonneg; [|lia].
  apply Z.add_nonneg_nonneg; apply Z.quot_pos; try lia; apply Z.mul_nonneg_nonneg; lia.
Qed.
Lemma average_exact s p0 w0 p1 w1 :
  0 < s -> (s | p0 * w0) -> (s | p1 * w1) -> average s p0 w0 p1 w1 = Z.quot (p0 * w0 + p1 * w1) (w0 + w1).
Proof.
  intros Hs [a Ha] [b Hb]. unfold average. rewrite Ha, Hb, !Z.quot_mul by lia. f_equal. ring.
Qed.

(** C26 *)
Lemma average_between s p0 w0 p1 w1 :
  0 < s -> 0 < p0 -> 0 < p1 -> 0 < w0 -> 0 < w1 ->
  let a := average s p0 w0 p1 w1 in let cost := p0 * w0 + p1 * w1 in
  a <= Z.max p0 p1 /\ Z.min p0 p1 * (w0 + w1) <= a * (w0 + w1) + (w0 + w1) + 2 * s /\
  a * (w0 + w1) <= cost <= a * (w0 + w1) + (w0 + w1) + 2 * s /\
  ((s | p0 * w0) -> (s | p1 * w1) -> Z.min p0 p1 <= a) /\
  ((s | p0 * w0) -> (s | p1 * w1) -> (w0 + w1 | cost) -> a * (w0 + w1) = cost).
Proof.
  intros Hs H0 H1 Hw0 Hw1 a cost. pose proof (average_bounds s p0 w0 p1 w1 Hs ltac:(lia) ltac:(lia) ltac:(lia) Hw1) as B.
  fold a cost in B.
  assert (M1 : cost <= Z.max p0 p1 * (w0 + w1)) by (unfold cost; nia).
  assert (M2 : Z.min p0 p1 * (w0 + w1) <= cost) by (unfold cost; nia).
  split; [|split; [lia|split; [lia|split]]].
  - apply (Zmult_le_reg_r _ _ (w0 + w1)); lia.
  - intros D0 D1. unfold a. rewrite average_exact by assumption. fold cost. rewrite Z.quot_div_nonneg by lia. apply Z.div_le_lower_bound; lia.
  - intros D0 D1 [k Hk]. unfold a. rewrite average_exact by assumption. fold cost. rewrite Hk, Z.quot_mul by lia. reflexivity.
Qed.

(** The ledger of positive fills. *)
Definition ledger_good (l : ledger) : Prop := 0 <= l_entry l /\ (l_qty l = 0 -> l_entry l = 0).
Definition filled_pos (f : fill) : Prop := 0 < f_qty f /\ 0 < f_price f.
Lemma next_good c l f : 0 < c_scale c -> filled_pos f -> ledger_good l -> ledger_good (ledger_next c l f).
Proof.
  intros Hs [Hq Hp] [H1 H2]. unfold ledger_next, apply_fill, ledger_good.
  assert (Hx : Z.abs (signed_qty f) = f_qty f) by (unfold signed_qty; destruct (f_side f); lia).
  destruct (Z.eqb_spec (l_qty l) 0); [cbn; lia|]. destruct (Z.eqb_spec (Z.sgn (l_qty l)) (Z.sgn (signed_qty f))).
  - cbn. split; [|lia]. apply average_nonneg; lia.
  - cbn. destruct (Z.eqb_spec (l_qty l + signed_qty f) 0); [lia|]. destruct (_ =? _); lia.
Qed.

Definition off (c : config) (l : ledger) (m : Z) : Z :=
  Z.abs (m * (c_scale c * c_scale c) - Z.abs (l_qty l) * l_entry l * ct_imr (c_spec c)).

Lemma off_step c l m f :
  c_kind c = Linear -> 0 < c_scale c -> 0 <= ct_imr (c_spec c) <= c_scale c -> filled_pos f -> ledger_good l ->
  off c (ledger_next c l f) (margin_after c l m f) <=
  off c l m + 4 * (c_scale c * c_scale c) + Z.abs (l_qty (ledger_next c l f)) * ct_imr (c_spec c).
Proof.
  intros Hk Hs Hi [Hq Hp] [H1 H2]. unfold off, ledger_next, apply_fill, margin_after.
  set (x := signed_qty f). assert (Hx : Z.abs x = f_qty f) by (unfold x, signed_qty; destruct (f_side f); lia).
  set (s := c_scale c) in *. set (r := ct_imr (c_spec c)) in *. set (q := f_qty f) in *. set (p := f_price f) in *.
  assert (Hr : forall a, 0 <= Z.abs a * r) by (intros; apply Z.mul_nonneg_nonneg; lia).
  assert (Hss : 0 < s * s) by nia.
  destruct (Z.eqb_spec (l_qty l) 0) as [E|E]; cbn [orb].
  - cbn [l_qty l_entry]. rewrite E, Hx. pose proof (margin_at_bounds c q p Hk Hs Hi ltac:(lia) ltac:(lia)) as B. fold s r in B.
    pose proof (Hr x) as Hrx. rewrite Hx in Hrx. replace (Z.abs 0 * l_entry l * r) with 0 by (cbn; lia). lia.
  - destruct (Z.eqb_spec (Z.sgn (l_qty l)) (Z.sgn x)) as [E1|E1]; cbn [l_qty l_entry].
    + pose proof (margin_at_bounds c q p Hk Hs Hi ltac:(lia) ltac:(lia)) as B. fold s r in B.
      pose proof (average_bounds s (l_entry l) (Z.abs (l_qty l)) p q Hs H1 ltac:(lia) ltac:(lia) Hq) as A.
      replace (Z.abs (l_qty l + x)) with (Z.abs (l_qty l) + q) by lia.
      set (a := average s (l_entry l) (Z.abs (l_qty l)) p q) in *. set (w := Z.abs (l_qty l)) in *.
      assert (Hw : 0 <= w) by lia. clearbody w a.
      assert (C1 : 0 <= (l_entry l * w + p * q - (w + q) * a) * r) by (apply Z.mul_nonneg_nonneg; lia).
      assert (C2 : (l_entry l * w + p * q - (w + q) * a) * r <= (2 * s + (w + q)) * r) by (apply Z.mul_le_mono_nonneg_r; lia).
      assert (C3 : 2 * s * r <= 2 * (s * s)) by nia.
      replace ((l_entry l * w + p * q - (w + q) * a) * r) with (w * l_entry l * r + q * p * r - (w + q) * a * r) in C1, C2 by ring.
      replace ((2 * s + (w + q)) * r) with (2 * s * r + (w + q) * r) in C2 by ring.
      replace ((m + margin_at c q p) * (s * s)) with (m * (s * s) + margin_at c q p * (s * s)) by ring. lia.
    + destruct (Z.leb_spec q (Z.abs (l_qty l))) as [Hle|Hgt].
      * pose proof (margin_at_bounds c q (l_entry l) Hk Hs Hi ltac:(lia) H1) as B. fold s r in B.
        pose proof (Hr (l_qty l + x)) as Hrx.
        replace ((m - margin_at c q (l_entry l)) * (s * s)) with (m * (s * s) - margin_at c q (l_entry l) * (s * s)) by ring.
        destruct (Z.eqb_spec (l_qty l + x) 0) as [E2|E2].
        -- rewrite E2. assert (Z.abs (l_qty l) = q) as -> by lia. replace (Z.abs 0 * 0 * r) with 0 by (cbn; lia). cbn [Z.abs] in *. lia.
        -- destruct (Z.eqb_spec (Z.sgn (l_qty l + x)) (Z.sgn (l_qty l))); [|lia].
           replace (Z.abs (l_qty l + x)) with (Z.abs (l_qty l) - q) in * by lia.
           replace ((Z.abs (l_qty l) - q) * l_entry l * r) with (Z.abs (l_qty l) * l_entry l * r - q * l_entry l * r) by ring. lia.
      * pose proof (margin_at_bounds c (q - Z.abs (l_qty l)) p Hk Hs Hi ltac:(lia) ltac:(lia)) as B. fold s r in B.
        pose proof (Hr (l_qty l + x)) as Hrx.
        destruct (Z.eqb_spec (l_qty l + x) 0); [lia|]. destruct (Z.eqb_spec (Z.sgn (l_qty l + x)) (Z.sgn (l_qty l))); [lia|].
        replace (Z.abs (l_qty l + x)) with (q - Z.abs (l_qty l)) in * by lia. lia.
Qed.

Lemma off_all c fs : forall l m,
  c_kind c = Linear -> 0 < c_scale c -> 0 <= ct_imr (c_spec c) <= c_scale c -> Forall filled_pos fs -> ledger_good l ->
  off c (fold_left (ledger_next c) fs l) (posted c l m fs) <= off c l m + allowance c l fs.
Proof.
  induction fs as [|f fs IH]; intros l m Hk Hs Hi HF Hg; cbn [fold_left posted allowance]; [lia|].
  inversion HF as [|? ? Hf Hr]; subst. pose proof (off_step c l m f Hk Hs Hi Hf Hg).
  specialize (IH (ledger_next c l f) (margin_after c l m f) Hk Hs Hi Hr (next_good _ _ _ Hs Hf Hg)). lia.
Qed.

Lemma fill_pos_filled fs : Forall fill_pos fs -> Forall filled_pos fs.
Proof. intros H. eapply Forall_impl; [|exact H]. intros f [A B]. split; assumption. Qed.

Lemma margin_drift c ops e outs :
  valid_config c -> c_kind c = Linear -> no_check ops -> history c ops e outs ->
  Z.abs (position_margin_of e * (c_scale c * c_scale c) -
         Z.abs (position_quantity (ex_pos e)) * position_entry_price (ex_pos e) * ct_imr (c_spec c))
  <= allowance c (ledger_start (c_start c)) (reported_fills c ops outs).
Proof.
  intros V Hk Hck H. pose proof (reported_pos _ _ _ _ (vc_max _ V) Hck H) as HF.
  rewrite (margin_posted _ _ _ _ (vc_max _ V) Hck H).
  pose proof (wi_ledger _ _ _ (history_winv _ _ _ _ (vc_max _ V) Hck H)) as Hl. fold (reported_fills c ops outs) in Hl.
  pose proof (off_all c (reported_fills c ops outs) (ledger_start (c_start c)) 0 Hk (vc_scale _ V) (vc_imr _ V) (fill_pos_filled _ HF)) as O.
  unfold off at 1 in O. change (fold_left (ledger_next c) (reported_fills c ops outs) (ledger_start (c_start c))) with (ledger_of c (reported_fills c ops outs)) in O.
  rewrite Hl in O. cbn [ledger_abs l_qty l_entry] in O. unfold off in O. cbn in O. apply O. split; cbn; lia.
Qed.

(** Without rounding the margin is exact. *)
Lemma exact_step c l m f :
  c_kind c = Linear -> 0 < c_scale c -> filled_pos f -> ledger_good l -> exact_fill c l f -> off c l m = 0 ->
  off c (ledger_next c l f) (margin_after c l m f) = 0.
Proof.
  intros Hk Hs [Hq Hp] [H1 H2] Hx0 Ho. unfold off, ledger_next, apply_fill, margin_after, exact_fill in *.
  set (x := signed_qty f) in *. assert (Hx : Z.abs x = f_qty f) by (unfold x, signed_qty; destruct (f_side f); lia).
  set (s := c_scale c) in *. set (r := ct_imr (c_spec c)) in *. set (q := f_qty f) in *. set (p := f_price f) in *.
  rewrite Hk in *. 
  destruct (Z.eqb_spec (l_qty l) 0) as [E|E]; cbn [orb].
  - cbn [l_qty l_entry]. rewrite Hx. pose proof (margin_at_exact c q p Hk Hs Hx0) as B. fold s r in B. rewrite E in Ho. cbn in Ho. lia.
  - destruct (Z.eqb_spec (Z.sgn (l_qty l)) (Z.sgn x)) as [E1|E1]; cbn [l_qty l_entry].
    + destruct Hx0 as (X1 & X2 & X3). pose proof (margin_at_exact c q p Hk Hs X1) as B. fold s r in B. destruct X1 as [X1 _]. fold s in X1.
      rewrite average_exact; [|lia | rewrite Z.mul_comm; exact X2 | rewrite Z.mul_comm; exact X1].
      replace (Z.abs (l_qty l + x)) with (Z.abs (l_qty l) + q) by lia.
      destruct X3 as [k X3]. replace (l_entry l * Z.abs (l_qty l) + p * q) with (Z.abs (l_qty l) * l_entry l + q * p) by ring.
      rewrite X3, Z.quot_mul by lia. replace ((Z.abs (l_qty l) + q) * k * r) with ((k * (Z.abs (l_qty l) + q)) * r) by ring. rewrite <- X3. lia.
    + destruct (Z.leb_spec q (Z.abs (l_qty l))) as [Hle|Hgt].
      * pose proof (margin_at_exact c q (l_entry l) Hk Hs Hx0) as B. fold s r in B.
        destruct (Z.eqb_spec (l_qty l + x) 0) as [E2|E2].
        -- rewrite E2. assert (Eq : Z.abs (l_qty l) = q) by lia. rewrite Eq in *. cbn [Z.abs]. lia.
        -- destruct (Z.eqb_spec (Z.sgn (l_qty l + x)) (Z.sgn (l_qty l))); [|lia].
           replace (Z.abs (l_qty l + x)) with (Z.abs (l_qty l) - q) by lia. lia.
      * pose proof (margin_at_exact c _ p Hk Hs Hx0) as B. fold s r in B.
        destruct (Z.eqb_spec (l_qty l + x) 0); [lia|]. destruct (Z.eqb_spec (Z.sgn (l_qty l + x)) (Z.sgn (l_qty l))); [lia|].
        replace (Z.abs (l_qty l + x)) with (q - Z.abs (l_qty l)) by lia. lia.
Qed.

Lemma exact_all c fs : forall l m,
  c_kind c = Linear -> 0 < c_scale c -> Forall filled_pos fs -> ledger_good l -> exact_fills c l fs -> off c l m = 0 ->
  off c (fold_left (ledger_next c) fs l) (posted c l m fs) = 0.
Proof.
  induction fs as [|f fs IH]; intros l m Hk Hs HF Hg Hx Ho; cbn [fold_left posted]; [exact Ho|].
  inversion HF; subst. destruct Hx as [Hx Hr]. apply IH; try assumption.
  - apply next_good; assumption.
  - apply exact_step; assumption.
Qed.

Lemma margin_exact c ops e outs :
  valid_config c -> c_kind c = Linear -> no_check ops -> history c ops e outs ->
  exact_fills c (ledger_start (c_start c)) (reported_fills c ops outs) ->
  position_margin_of e * (c_scale c * c_scale c) =
  Z.abs (position_quantity (ex_pos e)) * position_entry_price (ex_pos e) * ct_imr (c_spec c).
Proof.
  intros V Hk Hck H Hx. pose proof (reported_pos _ _ _ _ (vc_max _ V) Hck H) as HF.
  rewrite (margin_posted _ _ _ _ (vc_max _ V) Hck H).
  pose proof (wi_ledger _ _ _ (history_winv _ _ _ _ (vc_max _ V) Hck H)) as Hl. fold (reported_fills c ops outs) in Hl.
  pose proof (exact_all c (reported_fills c ops outs) (ledger_start (c_start c)) 0 Hk (vc_scale _ V) (fill_pos_filled _ HF)
    ltac:(split; cbn; lia) Hx ltac:(reflexivity)) as O.
  unfold off at 1 in O. change (fold_left (ledger_next c) (reported_fills c ops outs) (ledger_start (c_start c))) with (ledger_of c (reported_fills c ops outs)) in O.
  rewrite Hl in O. cbn [ledger_abs l_qty l_entry] in O. lia.
Qed.

(** ** Mirrored fills *)
Lemma value_opp k s q p : value k s (- q) p = - value k s q p.
Proof. rewrite !value_conv. apply conv_opp'. Qed.

Definition mirrored_ledger (a b : ledger) (n : Z) : Prop :=
  l_qty b = - l_qty a /\ l_entry b = l_entry a /\ l_due b = l_due a /\ l_paid b = l_paid a /\ realised n b = - realised n a.

Lemma mirror_step c n a b f : mirrored_ledger a b n -> mirrored_ledger (ledger_next c a f) (ledger_next c b (mirror f)) n.
Proof.
  intros (Hq & He & Hd & Hp & Hr). unfold ledger_next, apply_fill.
  assert (Hs : signed_qty (mirror f) = - signed_qty f) by (unfold signed_qty, mirror; cbn; destruct (f_side f); lia).
  change (fee (c_kind c) (c_scale c) (mirror f)) with (fee (c_kind c) (c_scale c) f).
  cbn [mirror f_qty f_price]. rewrite Hs, Hq, He, Hd, Z.abs_opp.
  destruct (Z.eqb_spec (l_qty a) 0), (Z.eqb_spec (- l_qty a) 0); try lia.
  - unfold mirrored_ledger, realised in *. cbn. repeat split; lia.
  - rewrite !Z.sgn_opp. destruct (Z.eqb_spec (Z.sgn (l_qty a)) (Z.sgn (signed_qty f))), (Z.eqb_spec (- Z.sgn (l_qty a)) (- Z.sgn (signed_qty f))); try lia.
    + unfold mirrored_ledger, realised in *. cbn. repeat split; lia.
    + replace (- l_qty a + - signed_qty f) with (- (l_qty a + signed_qty f)) by lia. rewrite Z.sgn_opp.
      destruct (Z.eqb_spec (l_qty a + signed_qty f) 0), (Z.eqb_spec (- (l_qty a + signed_qty f)) 0); try lia;
      destruct (Z.eqb_spec (Z.sgn (l_qty a + signed_qty f)) (Z.sgn (l_qty a))), (Z.eqb_spec (- Z.sgn (l_qty a + signed_qty f)) (- Z.sgn (l_qty a))); try lia;
      unfold mirrored_ledger, realised in *; cbn [l_qty l_entry l_due l_cash l_paid] in *; repeat split; lia.
Qed.
Lemma mirror_margin c n a b m f : mirrored_ledger a b n -> margin_after c b m (mirror f) = margin_after c a m f.
Proof.
  intros (Hq & He & _). unfold margin_after. cbn [mirror f_qty f_price].
  assert (Hs : signed_qty (mirror f) = - signed_qty f) by (unfold signed_qty, mirror; cbn; destruct (f_side f); lia).
  rewrite Hs, Hq, He, Z.abs_opp, !Z.sgn_opp.
  replace (- l_qty a =? 0) with (l_qty a =? 0) by lia. replace (- Z.sgn (l_qty a) =? - Z.sgn (signed_qty f)) with (Z.sgn (l_qty a) =? Z.sgn (signed_qty f)) by lia.
  reflexivity.
Qed.
Lemma mirror_all c n fs : forall a b m, mirrored_ledger a b n ->
  mirrored_ledger (fold_left (ledger_next c) fs a) (fold_left (ledger_next c) (map mirror fs) b) n /\
  posted c b m (map mirror fs) = posted c a m fs.
Proof.
  induction fs as [|f fs IH]; intros a b m H; cbn [fold_left map posted]; [split; [exact H | reflexivity]|].
  rewrite (mirror_margin _ _ _ _ _ _ H). apply IH. apply mirror_step; exact H.
Qed.

Lemma mirror_history c ops e outs ops' e' outs' :
  0 <= c_max c <= 10000 -> no_check ops -> no_check ops' -> history c ops e outs -> history c ops' e' outs' ->
  reported_fills c ops' outs' = map mirror (reported_fills c ops outs) ->
  position_quantity (ex_pos e') = - position_quantity (ex_pos e) /\
  position_entry_price (ex_pos e') = position_entry_price (ex_pos e) /\
  position_outstanding_fees (ex_pos e') = position_outstanding_fees (ex_pos e) /\
  fees_paid e' = fees_paid e /\ position_margin_of e' = position_margin_of e /\
  wealth_of e' + fees_paid e' - c_start c = - (wealth_of e + fees_paid e - c_start c).
Proof.
  intros Hm Hc Hc' H H' E.
  destruct (mirror_all c (c_start c) (reported_fills c ops outs) (ledger_start (c_start c)) (ledger_start (c_start c)) 0
    ltac:(unfold mirrored_ledger, realised; cbn; repeat split; lia)) as [M P].
  rewrite <- E in M, P.
  pose proof (wi_ledger _ _ _ (history_winv _ _ _ _ Hm Hc H)) as Hl. pose proof (wi_ledger _ _ _ (history_winv _ _ _ _ Hm Hc' H')) as Hl'.
  fold (reported_fills c ops outs) in Hl. fold (reported_fills c ops' outs') in Hl'.
  change (fold_left (ledger_next c) (reported_fills c ops outs) (ledger_start (c_start c))) with (ledger_of c (reported_fills c ops outs)) in M.
  change (fold_left (ledger_next c) (reported_fills c ops' outs') (ledger_start (c_start c))) with (ledger_of c (reported_fills c ops' outs')) in M.
  rewrite Hl, Hl' in M. destruct M as (M1 & M2 & M3 & M4 & M5). unfold realised in M5. cbn [ledger_abs l_qty l_entry l_due l_cash l_paid] in *.
  rewrite (margin_posted _ _ _ _ Hm Hc H), (margin_posted _ _ _ _ Hm Hc' H'), P.
  repeat split; assumption.
Qed.
