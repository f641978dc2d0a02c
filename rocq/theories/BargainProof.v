(** Executions at different prices. *)
From Verif Require Import ProofBase BookLemmas Inv Types Accounting Filters Position OrderBook OrderMargin MarketUpdate Exchange Spec SpecConfig SpecMarket SpecFlow SpecMargin SpecPanic
  SpecMachine SpecCrash MachineProof CrashProof MarginProof OrderProof HealthProof SpecBargain ReliefProof.

(** ** Numbers *)
Lemma quot_step s r v v' : 0 < s -> - s <= r <= s -> 0 <= v -> v <= v' -> Z.quot (v' * r) s - Z.quot (v * r) s <= v' - v /\ Z.quot (v * r) s - Z.quot (v' * r) s <= v' - v.
Proof.
  intros S R V L. destruct (Z.le_gt_cases 0 r) as [P|P].
  - pose proof (Z.quot_le_mono (v * r) (v' * r) s S ltac:(nia)). pose proof (Z.quot_le_mono (v' * r) (v * r + (v' - v) * s) s S ltac:(nia)) as H1.
    rewrite (Z.quot_add (v * r) (v' - v) s) in H1; [|lia|apply Z.mul_nonneg_nonneg; nia]. lia.
  - assert (E : forall x, Z.quot (x * r) s = - Z.quot (x * - r) s) by (intros x; rewrite <- Z.quot_opp_l by lia; f_equal; ring). rewrite !E.
    pose proof (Z.quot_le_mono (v * - r) (v' * - r) s S ltac:(nia)). pose proof (Z.quot_le_mono (v' * - r) (v * - r + (v' - v) * s) s S ltac:(nia)) as H1.
    rewrite (Z.quot_add (v * - r) (v' - v) s) in H1; [|lia|apply Z.mul_nonneg_nonneg; nia]. lia.
Qed.
(** What a contract brings in: minus its value when bought, the value when sold; the other way round for inverse contracts. *)
Definition brings (k : kind) (sd : side) (v : Z) : Z := match k, sd with Linear, Buy | Inverse, Sell => - v | _, _ => v end.
Lemma value_price k s q p p' : 0 < s -> 0 <= q -> 0 < p -> p <= p' -> match k with Linear => value k s q p <= value k s q p' | Inverse => value k s q p' <= value k s q p end.
Proof.
  intros S Q P L. destruct k; cbn [value]; [apply Z.quot_le_mono; nia|]. apply Z.quot_le_compat_l; nia.
Qed.
Lemma value_pos k s q p : 0 < s -> 0 <= q -> 0 < p -> 0 <= value k s q p.
Proof. intros. destruct k; cbn [value]; apply Z.quot_pos; nia. Qed.
Lemma brings_mono k s sd q p p' : 0 < s -> 0 <= q -> 0 < p -> 0 < p' -> no_worse sd p' p -> brings k sd (value k s q p) <= brings k sd (value k s q p').
Proof.
  intros S Q P P' N. destruct sd; cbn [no_worse] in N; [pose proof (value_price k s q p' p S Q P' N) as H | pose proof (value_price k s q p p' S Q P N) as H];
  destruct k; cbn [brings]; cbn beta iota in H; lia.
Qed.
Lemma fee_step k s sd q p p' r : 0 < s -> - s <= r <= s -> 0 <= q -> 0 < p -> 0 < p' -> no_worse sd p' p ->
  fee k s {| f_side := sd; f_qty := q; f_price := p'; f_rate := r |} - fee k s {| f_side := sd; f_qty := q; f_price := p; f_rate := r |} <= brings k sd (value k s q p') - brings k sd (value k s q p).
Proof.
  intros S R Q P P' N. pose proof (brings_mono k s sd q p p' S Q P P' N) as M. unfold fee. cbn [f_qty f_price f_rate].
  pose proof (value_pos k s q p S Q P). pose proof (value_pos k s q p' S Q P').
  destruct (Z.le_gt_cases (value k s q p) (value k s q p')) as [L|L].
  - pose proof (quot_step s r (value k s q p) (value k s q p') S R ltac:(assumption) L). destruct k, sd; cbn [brings] in *; lia.
  - pose proof (quot_step s r (value k s q p') (value k s q p) S R ltac:(assumption) ltac:(lia)). destruct k, sd; cbn [brings] in *; lia.
Qed.
Lemma fee_less k s sd q p p' r : 0 < s -> 0 <= r -> 0 <= q -> 0 < p -> 0 < p' -> smaller_is_better k sd -> no_worse sd p' p ->
  fee k s {| f_side := sd; f_qty := q; f_price := p'; f_rate := r |} <= fee k s {| f_side := sd; f_qty := q; f_price := p; f_rate := r |}.
Proof.
  intros S R Q P P' B N. pose proof (brings_mono k s sd q p p' S Q P P' N) as M. unfold fee. cbn [f_qty f_price f_rate]. apply Z.quot_le_mono; [lia|].
  apply Z.mul_le_mono_nonneg_r; [lia|]. destruct k, sd; cbn [brings smaller_is_better] in *; try lia; contradiction.
Qed.
Lemma average_mono s p0 w0 w1 p p' : 0 < s -> 0 <= w0 -> 0 < w1 -> p <= p' -> average s p0 w0 p w1 <= average s p0 w0 p' w1.
Proof.
  intros S W0 W1 L. unfold average. apply Z.quot_le_mono; [lia|]. apply Z.mul_le_mono_nonneg_r; [lia|]. apply Zplus_le_compat_l. apply Z.quot_le_mono; nia.
Qed.

(** ** Ledgers *)
Definition lworth (k : kind) (s m : Z) (l : ledger) : Z := l_cash l + Z.sgn (l_qty l) * gain k s (Z.abs (l_qty l)) (l_entry l) m - Z.max (l_due l) 0.
Lemma gain_brings k s q p m : gain k s q p m = match k with Linear => value k s q m - value k s q p | Inverse => value k s q p - value k s q m end.
Proof. reflexivity. Qed.

Section Two.
Variables (k : kind) (s m : Z) (l : ledger) (sd : side) (q r p p' : Z).
Hypotheses (S : 0 < s) (Q : 0 < q) (P : 0 < p) (P' : 0 < p') (N : no_worse sd p' p).
Let f := {| f_side := sd; f_qty := q; f_price := p; f_rate := r |}.
Let f' := {| f_side := sd; f_qty := q; f_price := p'; f_rate := r |}.
Let x := match sd with Buy => q | Sell => - q end.

Lemma fill_simple : - s <= r <= s -> l_qty l = 0 \/ match sd with Buy => q <= - l_qty l | Sell => q <= l_qty l end ->
  lworth k s m (apply_fill k s l f) <= lworth k s m (apply_fill k s l f').
Proof.
  intros R O. pose proof (fee_step k s sd q p p' r S R ltac:(lia) P P' N) as F. fold f in F. fold f' in F.
  pose proof (brings_mono k s sd q p p' S ltac:(lia) P P' N) as B. unfold apply_fill. change (signed_qty f) with x. change (signed_qty f') with x. cbn [f_qty f_price f f'].
  destruct (Z.eqb_spec (l_qty l) 0) as [Z0|Z0].
  - unfold lworth. cbn [l_qty l_entry l_due l_cash]. rewrite !gain_brings. subst x. destruct sd, k; cbn [brings] in *;
    rewrite ?Z.sgn_opp, ?Z.abs_opp, ?(Z.sgn_pos q), ?(Z.abs_eq q) by lia; lia.
  - destruct O as [O|O]; [contradiction|]. assert (SG : Z.sgn (l_qty l) =? Z.sgn x = false).
    { apply Z.eqb_neq. subst x. destruct sd; [rewrite (Z.sgn_neg (l_qty l)), (Z.sgn_pos q) by lia | rewrite (Z.sgn_pos (l_qty l)), (Z.sgn_neg (- q)) by lia]; lia. }
    rewrite SG. assert (CL : Z.min (Z.abs (l_qty l)) q = q) by (destruct sd; lia). rewrite CL. unfold lworth. cbn [l_qty l_entry l_due l_cash].
    assert (R0 : l_qty l + x = 0 \/ Z.sgn (l_qty l + x) = Z.sgn (l_qty l)).
    { subst x. destruct sd; [destruct (Z.eq_dec (l_qty l + q) 0); [left; assumption | right; rewrite !Z.sgn_neg by lia; reflexivity] |
      destruct (Z.eq_dec (l_qty l + - q) 0); [left; assumption | right; rewrite !Z.sgn_pos by lia; reflexivity]]. }
    rewrite !gain_brings. assert (SN : Z.sgn (l_qty l) = match sd with Buy => -1 | Sell => 1 end) by (destruct sd; [apply Z.sgn_neg | apply Z.sgn_pos]; lia).
    destruct R0 as [R0|R0].
    + rewrite R0, Z.eqb_refl. rewrite SN. change (Z.sgn 0) with 0. destruct sd, k; cbn [brings] in *; cbn [Z.eqb]; lia.
    + rewrite R0, SN, Z.eqb_refl. destruct (Z.eqb_spec (l_qty l + x) 0) as [E|E]; [rewrite E in R0; cbn in R0; lia|]. destruct sd, k; cbn [brings] in *; lia.
Qed.

Lemma fill_smaller : 0 <= r -> smaller_is_better k sd -> (k = Inverse -> 0 < l_entry (apply_fill k s l f) \/ l_qty (apply_fill k s l f) = 0) ->
  lworth k s m (apply_fill k s l f) <= lworth k s m (apply_fill k s l f').
Proof.
  intros R SB EN. pose proof (fee_less k s sd q p p' r S R ltac:(lia) P P' SB N) as F. fold f in F. fold f' in F.
  revert EN. unfold apply_fill. change (signed_qty f) with x. change (signed_qty f') with x. cbn [f_qty f_price f f'].
  destruct (Z.eqb_spec (l_qty l) 0) as [Z0|Z0]; [|destruct (Z.eqb_spec (Z.sgn (l_qty l)) (Z.sgn x)) as [SG|SG]]; unfold lworth; cbn [l_qty l_entry l_due l_cash]; intros EN; rewrite !gain_brings.
  - pose proof (brings_mono k s sd q p p' S ltac:(lia) P P' N) as B. subst x. destruct sd, k; cbn [brings smaller_is_better] in *; try contradiction;
    rewrite ?Z.sgn_opp, ?Z.abs_opp, ?(Z.sgn_pos q), ?(Z.abs_eq q) by lia; lia.
  - set (w := Z.abs (l_qty l)) in *. set (a := average s (l_entry l) w p q) in *. set (a' := average s (l_entry l) w p' q).
    assert (NW : no_worse sd a' a) by (destruct sd; cbn [no_worse] in *; apply average_mono; lia).
    subst x. destruct sd, k; cbn [smaller_is_better no_worse] in *; try contradiction.
    + assert (0 < l_qty l) by (rewrite (Z.sgn_pos q) in SG by lia; apply Z.sgn_pos_iff; exact SG). rewrite !(Z.sgn_pos (l_qty l + q)), (Z.abs_eq (l_qty l + q)) by lia.
      pose proof (Z.quot_le_mono ((l_qty l + q) * a') ((l_qty l + q) * a) s S ltac:(nia)). cbn [value]. lia.
    + assert (l_qty l < 0) by (rewrite (Z.sgn_neg (- q)) in SG by lia; apply Z.sgn_neg_iff; exact SG). rewrite !(Z.sgn_neg (l_qty l + - q)), (Z.abs_neq (l_qty l + - q)) by lia.
      destruct (EN eq_refl) as [A|A]; [|lia]. pose proof (value_price Inverse s (- (l_qty l + - q)) a a' S ltac:(lia) A NW) as V. cbn beta iota in V. lia.
  - set (closed := Z.min (Z.abs (l_qty l)) q). pose proof (brings_mono k s sd closed p p' S ltac:(lia) P P' N) as B1.
    assert (SN : Z.sgn (l_qty l) = match sd with Buy => -1 | Sell => 1 end).
    { destruct (Z.lt_trichotomy (l_qty l) 0) as [H|[H|H]]; [|contradiction|].
      - rewrite (Z.sgn_neg (l_qty l) H) in *. subst x. destruct sd; [reflexivity|]. exfalso. apply SG. rewrite Z.sgn_neg by lia. reflexivity.
      - rewrite (Z.sgn_pos (l_qty l) H) in *. subst x. destruct sd; [|reflexivity]. exfalso. apply SG. rewrite Z.sgn_pos by lia. reflexivity. }
    pose proof (brings_mono k s sd (Z.abs (l_qty l + x)) p p' S ltac:(lia) P P' N) as B2.
    rewrite SN. destruct (Z.eqb_spec (l_qty l + x) 0) as [E|E].
    { rewrite E. change (Z.sgn 0) with 0. destruct sd, k; cbn [brings smaller_is_better] in *; try contradiction; cbn [Z.eqb]; lia. }
    destruct (Z.eqb_spec (Z.sgn (l_qty l + x)) (match sd with Buy => -1 | Sell => 1 end)) as [SR|SR].
    + destruct sd, k; cbn [brings smaller_is_better] in *; try contradiction; lia.
    + assert (SR' : Z.sgn (l_qty l + x) = match sd with Buy => 1 | Sell => -1 end).
      { destruct sd; lia. }
      rewrite SR'. destruct sd, k; cbn [brings smaller_is_better] in *; try contradiction; lia.
Qed.
End Two.

(** ** Exchanges *)
Lemma worth_ledger c m e : worth c m e = lworth (c_kind c) (c_scale c) m (statement_of e).
Proof. reflexivity. Qed.
Lemma bought c e sd q uid f o : valid_config c -> reachable c e -> step c e (OpMarket sd q uid) = Done (f, Ok o) ->
  0 < q /\ 0 < deal e sd /\ statement_of f = apply_fill (c_kind c) (c_scale c) (statement_of e) {| f_side := sd; f_qty := q; f_price := deal e sd; f_rate := ct_taker (c_spec c) |}.
Proof.
  intros V R S. destruct (exec_ok c e _ f _ V R S) as [C K]. cbn [m_call m_crash] in C, K. unfold market_crash in C. unfold m_market in K.
  destruct (Z.leb_spec q 0); [discriminate|]. destruct (quantity_fault _ q); [discriminate|]. destruct (m_funded c (machine_of e) sd q); [|discriminate].
  split; [lia|]. assert (D : m_price (machine_of e) sd = deal e sd) by (destruct sd; reflexivity). split.
  - cbn [first_of] in C. destruct (demand _ PDivByZero); [discriminate|]. unfold take_crash in C. unfold demand in C. rewrite D in C. destruct (Z.ltb_spec 0 (deal e sd)) as [H1|H1]; [exact H1|]. cbn [first_of] in C. discriminate.
  - apply (f_equal fst) in K. cbn [fst] in K. apply (f_equal m_book) in K. cbn [with_id m_fill m_book] in K. unfold taken in K. rewrite D in K. symmetry. exact K.
Qed.
Lemma bargain_simple c e1 e2 sd q u1 u2 f1 f2 o1 o2 m : valid_config c -> reachable c e1 -> reachable c e2 -> statement_of e1 = statement_of e2 ->
  - c_scale c <= ct_taker (c_spec c) <= c_scale c -> no_worse sd (deal e2 sd) (deal e1 sd) -> opens_or_reduces e1 sd q ->
  step c e1 (OpMarket sd q u1) = Done (f1, Ok o1) -> step c e2 (OpMarket sd q u2) = Done (f2, Ok o2) -> worth c m f1 <= worth c m f2.
Proof.
  intros V R1 R2 E T N O S1 S2. destruct (bought _ _ _ _ _ _ _ V R1 S1) as (Q & P1 & A1). destruct (bought _ _ _ _ _ _ _ V R2 S2) as (_ & P2 & A2).
  rewrite !worth_ledger, A1, A2, <- E. apply fill_simple; auto. apply (vc_scale _ V).
Qed.
Lemma bargain_smaller c e1 e2 sd q u1 u2 f1 f2 o1 o2 m : valid_config c -> reachable c e1 -> reachable c e2 -> statement_of e1 = statement_of e2 ->
  0 <= ct_taker (c_spec c) -> smaller_is_better (c_kind c) sd -> no_worse sd (deal e2 sd) (deal e1 sd) -> (c_kind c = Inverse -> 0 < position_entry_price (ex_pos f1) \/ position_quantity (ex_pos f1) = 0) ->
  step c e1 (OpMarket sd q u1) = Done (f1, Ok o1) -> step c e2 (OpMarket sd q u2) = Done (f2, Ok o2) -> worth c m f1 <= worth c m f2.
Proof.
  intros V R1 R2 E T SB N EN S1 S2. destruct (bought _ _ _ _ _ _ _ V R1 S1) as (Q & P1 & A1). destruct (bought _ _ _ _ _ _ _ V R2 S2) as (_ & P2 & A2).
  rewrite !worth_ledger, A1, A2, <- E. apply fill_smaller; auto; [apply (vc_scale _ V)|]. rewrite <- A1. exact EN.
Qed.

(** Acceptance. *)
Lemma bargain_accepted c e1 e2 sd q u1 u2 f1 f2 o1 r2 : valid_config c -> reachable c e1 -> reachable c e2 -> statement_of e1 = statement_of e2 ->
  position_margin_of e1 = position_margin_of e2 -> order_margin_of e1 = order_margin_of e2 -> 0 <= ct_taker (c_spec c) ->
  smaller_is_better (c_kind c) sd -> no_worse sd (deal e2 sd) (deal e1 sd) -> 0 < deal e2 sd ->
  step c e1 (OpMarket sd q u1) = Done (f1, Ok o1) -> step c e2 (OpMarket sd q u2) = Done (f2, r2) -> exists o2, r2 = Ok o2.
Proof.
  intros V R1 R2 E EP EO T SB N P2 S1 S2. destruct (bought _ _ _ _ _ _ _ V R1 S1) as (Q & P1 & _).
  destruct (exec_ok c e1 _ f1 _ V R1 S1) as [_ K1]. destruct (exec_ok c e2 _ f2 _ V R2 S2) as [_ K2]. cbn [m_call] in K1, K2. unfold m_market in K1, K2.
  destruct (Z.leb_spec q 0); [lia|]. destruct (quantity_fault _ q); [discriminate|]. destruct (m_funded c (machine_of e1) sd q) eqn:F1; [|discriminate].
  assert (F2 : m_funded c (machine_of e2) sd q = true).
  { revert F1. unfold m_funded, m_free, m_pos. change (m_book (machine_of e1)) with (statement_of e1). change (m_book (machine_of e2)) with (statement_of e2).
    change (m_held (machine_of e1)) with (position_margin_of e1). change (m_held (machine_of e2)) with (position_margin_of e2).
    change (m_reserved (machine_of e1)) with (order_margin_of e1). change (m_reserved (machine_of e2)) with (order_margin_of e2). rewrite E, EP, EO.
    assert (L : forall z, 0 <= z -> margin_at c z (m_price (machine_of e2) sd) + fee (c_kind c) (c_scale c) (taken c (machine_of e2) sd z) <= margin_at c z (m_price (machine_of e1) sd) + fee (c_kind c) (c_scale c) (taken c (machine_of e1) sd z)).
    { intros z Z0. assert (D1 : m_price (machine_of e1) sd = deal e1 sd) by (destruct sd; reflexivity). assert (D2 : m_price (machine_of e2) sd = deal e2 sd) by (destruct sd; reflexivity).
      unfold taken. rewrite D1, D2. pose proof (vc_scale _ V). pose proof (vc_imr _ V). apply Z.add_le_mono; [|apply fee_less; auto].
      unfold margin_at. apply Z.quot_le_mono; [lia|]. apply Z.mul_le_mono_nonneg_r; [lia|].
      pose proof (brings_mono (c_kind c) (c_scale c) sd z (deal e1 sd) (deal e2 sd) ltac:(lia) Z0 P1 P2 N) as B. destruct sd, (c_kind c); cbn [brings smaller_is_better] in *; try contradiction; lia. }
    change (signed_qty (taken c (machine_of e2) sd q)) with (signed_qty (taken c (machine_of e1) sd q)).
    destruct (_ || _).
    - intros G. apply Z.leb_le in G. apply Z.leb_le. specialize (L q ltac:(lia)). lia.
    - destruct (Z.leb_spec q (Z.abs (l_qty (statement_of e2)))); [reflexivity|]. cbn [orb]. intros G. apply Z.leb_le in G. apply Z.leb_le. specialize (L (q - Z.abs (l_qty (statement_of e2))) ltac:(lia)). lia. }
  rewrite F2 in K2. apply (f_equal snd) in K2. cbn [snd] in K2. eexists. symmetry. exact K2.
Qed.
