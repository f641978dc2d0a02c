(** How much a better price can cost at most. *)
From Verif Require Import ProofBase StepLemmas BookLemmas Inv Types Accounting Filters Position OrderBook OrderMargin MarketUpdate Exchange Spec SpecConfig SpecMarket SpecFlow SpecMargin SpecPanic
  SpecMachine SpecCrash MachineProof CrashProof MarginProof OrderProof HealthProof LiqProof SpecBargain ReliefProof BargainProof.

Lemma quot_split a b p : 0 < p -> 0 <= a -> 0 <= b -> Z.quot a p + Z.quot b p <= Z.quot (a + b) p <= Z.quot a p + Z.quot b p + 1.
Proof.
  intros P A B. rewrite !Z.quot_div_nonneg by lia. pose proof (Z.div_mod a p ltac:(lia)). pose proof (Z.div_mod b p ltac:(lia)). pose proof (Z.mod_pos_bound a p P). pose proof (Z.mod_pos_bound b p P).
  split; [apply Z.div_le_lower_bound; nia|]. assert ((a + b) / p < a / p + b / p + 2); [apply Z.div_lt_upper_bound; nia | lia].
Qed.
Lemma value_split k s a b p : 0 < s -> 0 < p -> 0 <= a -> 0 <= b -> value k s a p + value k s b p <= value k s (a + b) p <= value k s a p + value k s b p + 1.
Proof. intros. destruct k; cbn [value]; rewrite Z.mul_add_distr_r; apply quot_split; nia. Qed.

Section Two.
Variables (k : kind) (s m : Z) (l : ledger) (sd : side) (q r p p' : Z).
Hypotheses (S : 0 < s) (Q : 0 < q) (P : 0 < p) (P' : 0 < p') (N : no_worse sd p' p).
Let f := {| f_side := sd; f_qty := q; f_price := p; f_rate := r |}.
Let f' := {| f_side := sd; f_qty := q; f_price := p'; f_rate := r |}.
Let x := match sd with Buy => q | Sell => - q end.

Lemma fill_turning : - s <= r <= s -> match sd with Buy => - l_qty l < q | Sell => l_qty l < q end -> match sd with Buy => l_qty l < 0 | Sell => 0 < l_qty l end ->
  lworth k s m (apply_fill k s l f) - 1 <= lworth k s m (apply_fill k s l f').
Proof.
  intros R O O2. pose proof (fee_step k s sd q p p' r S R ltac:(lia) P P' N) as F. fold f in F. fold f' in F.
  set (a := Z.abs (l_qty l)). set (b := q - a).
  assert (A : 0 <= a) by lia. assert (B : 0 < b) by (subst a b; destruct sd; lia).
  pose proof (brings_mono k s sd a p p' S A P P' N) as B1. pose proof (brings_mono k s sd b p p' S ltac:(lia) P P' N) as B2.
  pose proof (value_split k s a b p S P A ltac:(lia)) as V1. pose proof (value_split k s a b p' S P' A ltac:(lia)) as V2. replace (a + b) with q in V1, V2 by lia.
  unfold apply_fill. change (signed_qty f) with x. change (signed_qty f') with x. cbn [f_qty f_price f f'].
  destruct (Z.eqb_spec (l_qty l) 0) as [Z0|Z0]; [destruct sd; lia|].
  assert (SG : Z.sgn (l_qty l) =? Z.sgn x = false) by (apply Z.eqb_neq; subst x; destruct sd; lia). rewrite SG.
  assert (CL : Z.min (Z.abs (l_qty l)) q = a) by (subst a b; destruct sd; lia). rewrite CL. unfold lworth. cbn [l_qty l_entry l_due l_cash]. rewrite !gain_brings.
  assert (SN : Z.sgn (l_qty l) = match sd with Buy => -1 | Sell => 1 end) by (destruct sd; [apply Z.sgn_neg | apply Z.sgn_pos]; lia).
  assert (SR : Z.sgn (l_qty l + x) = match sd with Buy => 1 | Sell => -1 end) by (subst x a b; destruct sd; [apply Z.sgn_pos | apply Z.sgn_neg]; lia).
  assert (AB : Z.abs (l_qty l + x) = b) by (subst x a b; destruct sd; lia). assert (NE : l_qty l + x =? 0 = false) by (apply Z.eqb_neq; lia).
  rewrite NE, SR, SN, AB. destruct sd, k; cbn [brings] in *; cbn [Z.eqb Pos.eqb]; lia.
Qed.
End Two.

Lemma average_step s A v v' W : 0 < s -> 0 < W -> 0 <= A + v -> v <= v' ->
  s * (v' - v) < s * (Z.quot (W * Z.quot ((A + v') * s) W) s - Z.quot (W * Z.quot ((A + v) * s) W) s) + W + s.
Proof.
  intros S W0 A0 L. rewrite (Z.quot_div_nonneg ((A + v') * s)), (Z.quot_div_nonneg ((A + v) * s)) by nia.
  set (a := (A + v) * s / W). set (a' := (A + v') * s / W).
  assert (Ha : 0 <= a) by (apply Z.div_pos; nia). assert (Ha' : 0 <= a') by (apply Z.div_pos; nia).
  rewrite !Z.quot_div_nonneg by nia.
  pose proof (Z.mul_div_le ((A + v) * s) W W0) as H1. fold a in H1. pose proof (Z.mul_succ_div_gt ((A + v') * s) W W0) as H2. fold a' in H2.
  pose proof (Z.mul_div_le (W * a) s S). pose proof (Z.mul_succ_div_gt (W * a') s S). nia.
Qed.
Lemma fill_adding s m l q r p p' : 0 < s -> 0 < q -> 0 < p -> p <= p' -> - s <= r <= s -> l_qty l < 0 -> 0 <= l_entry l ->
  let f := {| f_side := Sell; f_qty := q; f_price := p; f_rate := r |} in let f' := {| f_side := Sell; f_qty := q; f_price := p'; f_rate := r |} in
  s * (lworth Linear s m (apply_fill Linear s l f) - lworth Linear s m (apply_fill Linear s l f')) < q - l_qty l + s.
Proof.
  intros S Q P L R O E f f'. pose proof (fee_step Linear s Sell q p p' r S R ltac:(lia) P ltac:(lia) L) as F. fold f in F. fold f' in F. cbn [brings] in F.
  unfold apply_fill. change (signed_qty f) with (- q). change (signed_qty f') with (- q). cbn [f_qty f_price f f'].
  destruct (Z.eqb_spec (l_qty l) 0) as [Z0|Z0]; [lia|]. assert (SG : Z.sgn (l_qty l) =? Z.sgn (- q) = true) by (apply Z.eqb_eq; rewrite !Z.sgn_neg by lia; reflexivity). rewrite SG.
  unfold lworth. cbn [l_qty l_entry l_due l_cash]. rewrite !gain_brings. rewrite !(Z.sgn_neg (l_qty l + - q)), (Z.abs_neq (l_qty l + - q)), (Z.abs_neq (l_qty l)) by lia.
  unfold average. replace (- l_qty l + q) with (- (l_qty l + - q)) by ring. set (W := - (l_qty l + - q)).
  assert (A0 : 0 <= Z.quot (l_entry l * - l_qty l) s) by (apply Z.quot_pos; nia). assert (V0 : 0 <= Z.quot (p * q) s) by (apply Z.quot_pos; nia).
  assert (VL : Z.quot (p * q) s <= Z.quot (p' * q) s) by (apply Z.quot_le_mono; nia).
  pose proof (average_step s (Z.quot (l_entry l * - l_qty l) s) (Z.quot (p * q) s) (Z.quot (p' * q) s) W S ltac:(lia) ltac:(lia) VL) as H.
  cbn [value] in *. rewrite (Z.mul_comm q p), (Z.mul_comm q p') in F.
  set (a := Z.quot ((Z.quot (l_entry l * - l_qty l) s + Z.quot (p * q) s) * s) W) in *. set (a' := Z.quot ((Z.quot (l_entry l * - l_qty l) s + Z.quot (p' * q) s) * s) W) in *.
  set (b := Z.quot (W * a) s) in *. set (b' := Z.quot (W * a') s) in *. set (v := Z.quot (p * q) s) in *. set (v' := Z.quot (p' * q) s) in *.
  set (d0 := l_due l + fee Linear s f) in *. set (d0' := l_due l + fee Linear s f') in *.
  assert (D : Z.max d0' 0 - Z.max d0 0 <= v' - v) by lia. set (g := Z.quot (W * m) s). fold g. nia.
Qed.

Lemma bargain_turning c e1 e2 sd q u1 u2 f1 f2 o1 o2 m : valid_config c -> reachable c e1 -> reachable c e2 -> statement_of e1 = statement_of e2 ->
  - c_scale c <= ct_taker (c_spec c) <= c_scale c -> no_worse sd (deal e2 sd) (deal e1 sd) -> (same_side sd (ex_pos e1) = false \/ ex_pos e1 = Neutral) ->
  step c e1 (OpMarket sd q u1) = Done (f1, Ok o1) -> step c e2 (OpMarket sd q u2) = Done (f2, Ok o2) -> worth c m f1 - 1 <= worth c m f2.
Proof.
  intros V R1 R2 E T N O S1 S2. destruct (bought _ _ _ _ _ _ _ V R1 S1) as (Q & P1 & A1). destruct (bought _ _ _ _ _ _ _ V R2 S2) as (_ & P2 & A2).
  pose proof (inv_pos _ _ (reachable_inv c e1 (vc_max _ V) R1)) as IP.
  destruct (Z_le_gt_dec q (match sd with Buy => - position_quantity (ex_pos e1) | Sell => position_quantity (ex_pos e1) end)) as [H|H].
  - assert (OR : opens_or_reduces e1 sd q) by (right; destruct sd; exact H). pose proof (bargain_simple c e1 e2 sd q u1 u2 f1 f2 o1 o2 m V R1 R2 E T N OR S1 S2). lia.
  - destruct O as [O|O].
    + rewrite !worth_ledger, A1, A2, <- E. apply fill_turning; auto; [apply (vc_scale _ V)| |]; cbn [statement_of l_qty]; destruct sd, (ex_pos e1); try discriminate O; cbn [position_quantity pos_ok] in *; lia.
    + assert (OR : opens_or_reduces e1 sd q) by (left; rewrite O; reflexivity). pose proof (bargain_simple c e1 e2 sd q u1 u2 f1 f2 o1 o2 m V R1 R2 E T N OR S1 S2). lia.
Qed.
Lemma bargain_adding c e1 e2 q u1 u2 f1 f2 o1 o2 m i : valid_config c -> reachable c e1 -> reachable c e2 -> statement_of e1 = statement_of e2 -> c_kind c = Linear ->
  - c_scale c <= ct_taker (c_spec c) <= c_scale c -> deal e1 Sell <= deal e2 Sell -> ex_pos e1 = Short i ->
  step c e1 (OpMarket Sell q u1) = Done (f1, Ok o1) -> step c e2 (OpMarket Sell q u2) = Done (f2, Ok o2) ->
  c_scale c * (worth c m f1 - worth c m f2) < Z.abs (position_quantity (ex_pos f1)) + c_scale c.
Proof.
  intros V R1 R2 E K T N O S1 S2. destruct (bought _ _ _ _ _ _ _ V R1 S1) as (Q & P1 & A1). destruct (bought _ _ _ _ _ _ _ V R2 S2) as (_ & P2 & A2).
  pose proof (inv_pos _ _ (reachable_inv c e1 (vc_max _ V) R1)) as IP. rewrite O in IP. cbn [pos_ok] in IP.
  assert (QF : position_quantity (ex_pos f1) = l_qty (statement_of e1) - q).
  { change (position_quantity (ex_pos f1)) with (l_qty (statement_of f1)). rewrite A1. unfold apply_fill. cbn [signed_qty f_side f_qty].
    destruct (Z.eqb_spec (l_qty (statement_of e1)) 0) as [Z0|Z0]; [cbn [l_qty]; lia|]. destruct (_ =? _); cbn [l_qty]; lia. }
  rewrite !worth_ledger. rewrite A1 at 1. rewrite A2, <- E. rewrite QF, K.
  assert (L0 : l_qty (statement_of e1) < 0) by (cbn [statement_of l_qty]; rewrite O; cbn [position_quantity]; lia).
  pose proof (fill_adding (c_scale c) m (statement_of e1) q (ct_taker (c_spec c)) (deal e1 Sell) (deal e2 Sell) (vc_scale _ V) Q P1 N T L0) as H. cbn zeta in H.
  eapply Z.lt_le_trans; [apply H; exact (entry_nonneg c e1 (vc_scale _ V) (vc_max _ V) R1)|lia].
Qed.
