(** Proofs about mirrored samples. *)
From Coq Require Import QArith Qround Qabs Qpower Lqa Lia List.
From Verif Require Import Base Tracker Width Helpers Float SpecDouble FloatBase FloatStats SpecSample FloatStatsProof FloatStatsMean FloatStatsGrid.
Import ListNotations.
Open Scope Q_scope.

Lemma near_opp q : nearest_even (- q) = (- nearest_even q)%Z.
Proof.
  unfold nearest_even. pose proof (Qfloor_le q) as L. pose proof (Qlt_floor q) as U. rewrite inject_Z_plus in U. change (inject_Z 1) with 1 in U.
  set (n := Qfloor q) in *. destruct (Qcompare (q - inject_Z n) (1 # 2)) eqn:E.
  - apply Qeq_alt in E. assert (Fl : Qfloor (- q) = (- n - 1)%Z).
    { apply Z.le_antisymm.
      - assert (Qfloor (- q) < - n)%Z; [|lia]. rewrite Zlt_Qlt, inject_Z_opp. pose proof (Qfloor_le (- q)). lra.
      - assert (- n - 1 < Qfloor (- q) + 1)%Z; [|lia]. rewrite Zlt_Qlt. pose proof (Qlt_floor (- q)). replace (- n - 1)%Z with (- n + -1)%Z by lia. rewrite (inject_Z_plus (- n)), inject_Z_opp. change (inject_Z (-1)) with (- (1)). lra. }
    rewrite Fl. assert (E' : - q - inject_Z (- n - 1) == 1 # 2) by (replace (- n - 1)%Z with (- n + -1)%Z by lia; rewrite inject_Z_plus, inject_Z_opp; change (inject_Z (-1)) with (- (1)); lra).
    rewrite (proj1 (Qeq_alt _ _) E'). replace (- n - 1)%Z with (- (n + 1))%Z by lia. rewrite Z.even_opp, Z.add_1_r, Z.even_succ, <- Z.negb_even. destruct (Z.even n); cbn [negb]; lia.
  - apply Qlt_alt in E. destruct (Qeq_dec q (inject_Z n)) as [Eq|Ne].
    + assert (Fl : Qfloor (- q) = (- n)%Z). { assert (Eo : - q == inject_Z (- n)) by (rewrite inject_Z_opp, Eq; reflexivity). rewrite Eo. apply Qfloor_Z. }
      rewrite Fl. assert (E' : - q - inject_Z (- n) < 1 # 2) by (rewrite inject_Z_opp; lra). rewrite (proj1 (Qlt_alt _ _) E'). reflexivity.
    + assert (Lt : inject_Z n < q) by (destruct (Qle_lt_or_eq _ _ L) as [H|H]; [exact H | symmetry in H; contradiction]).
      assert (Fl : Qfloor (- q) = (- n - 1)%Z).
      { apply Z.le_antisymm.
        - assert (Qfloor (- q) < - n)%Z; [|lia]. rewrite Zlt_Qlt, inject_Z_opp. pose proof (Qfloor_le (- q)). lra.
        - assert (- n - 1 < Qfloor (- q) + 1)%Z; [|lia]. rewrite Zlt_Qlt. pose proof (Qlt_floor (- q)). replace (- n - 1)%Z with (- n + -1)%Z by lia. rewrite (inject_Z_plus (- n)), inject_Z_opp. change (inject_Z (-1)) with (- (1)). lra. }
      rewrite Fl. assert (E' : (1 # 2) < - q - inject_Z (- n - 1)) by (replace (- n - 1)%Z with (- n + -1)%Z by lia; rewrite inject_Z_plus, inject_Z_opp; change (inject_Z (-1)) with (- (1)); lra).
      rewrite (proj1 (Qgt_alt _ _) E'). lia.
  - apply Qgt_alt in E. assert (Fl : Qfloor (- q) = (- n - 1)%Z).
    { apply Z.le_antisymm.
      - assert (Qfloor (- q) < - n)%Z; [|lia]. rewrite Zlt_Qlt, inject_Z_opp. pose proof (Qfloor_le (- q)). lra.
      - assert (- n - 1 < Qfloor (- q) + 1)%Z; [|lia]. rewrite Zlt_Qlt. pose proof (Qlt_floor (- q)). replace (- n - 1)%Z with (- n + -1)%Z by lia. rewrite (inject_Z_plus (- n)), inject_Z_opp. change (inject_Z (-1)) with (- (1)). lra. }
    rewrite Fl. assert (E' : - q - inject_Z (- n - 1) < 1 # 2) by (replace (- n - 1)%Z with (- n + -1)%Z by lia; rewrite inject_Z_plus, inject_Z_opp; change (inject_Z (-1)) with (- (1)); lra).
    rewrite (proj1 (Qlt_alt _ _) E'). lia.
Qed.
Lemma mult_opp x y : - x * y = - (x * y).
Proof. destruct x as [n d], y as [n' d']. unfold Qopp, Qmult. cbn [Qnum Qden]. rewrite Z.mul_opp_l. reflexivity. Qed.
Lemma abs_opp x : Qabs (- x) = Qabs x.
Proof. destruct x as [n d]. unfold Qopp, Qabs. cbn [Qnum Qden]. rewrite Z.abs_opp. reflexivity. Qed.
Lemma plus_opp x y : - x + - y = - (x + y).
Proof. destruct x as [n d], y as [n' d']. unfold Qopp, Qplus. cbn [Qnum Qden]. f_equal. lia. Qed.
Lemma zero_opp x : Qeq_bool (- x) 0 = Qeq_bool x 0.
Proof. destruct x as [n d]. unfold Qeq_bool, Qopp. cbn [Qnum Qden]. unfold Zeq_bool. destruct n; reflexivity. Qed.
Lemma negative_opp x : Qeq_bool x 0 = false -> negative (- x) = negb (negative x).
Proof.
  intros H. unfold negative. rewrite Bool.negb_involutive. destruct (Qle_bool 0 x) eqn:A, (Qle_bool 0 (- x)) eqn:B; try reflexivity; exfalso.
  - apply Qle_bool_iff in A, B. assert (C : Qeq_bool x 0 = true) by (apply Qeq_bool_iff; lra). congruence.
  - assert (A' : ~ 0 <= x) by (intros C; apply Qle_bool_iff in C; congruence). assert (B' : ~ 0 <= - x) by (intros C; apply Qle_bool_iff in C; congruence).
    apply Qnot_le_lt in A', B'. lra.
Qed.
Lemma round_opp f x : round_to f (- x) = fopp (round_to f x).
Proof.
  unfold round_to. rewrite zero_opp, abs_opp. destruct (Qeq_bool x 0) eqn:E0; [reflexivity|]. set (e := Z.max _ _). cbv zeta.
  unfold Qdiv. rewrite mult_opp, near_opp, inject_Z_opp, mult_opp, abs_opp. destruct (Qle_bool _ _); [|reflexivity]. rewrite negative_opp by exact E0. reflexivity.
Qed.
Lemma opp_opp a : fopp (fopp a) = a.
Proof. destruct a as [|s|[n d]]; cbn [fopp]; [reflexivity | rewrite Bool.negb_involutive; reflexivity|]. unfold Qopp. cbn [Qnum Qden]. rewrite Z.opp_involutive. reflexivity. Qed.
Lemma add_opp f a b : fadd f (fopp a) (fopp b) = fopp (fadd f a b).
Proof. destruct a as [|s|x], b as [|t|y]; cbn [fadd fopp]; try reflexivity; [destruct s, t; reflexivity|]. rewrite plus_opp. apply round_opp. Qed.
Lemma sub_opp f a b : fsub f (fopp a) (fopp b) = fopp (fsub f a b).
Proof. unfold fsub. apply add_opp. Qed.
Lemma mul_opp f a b : fmul f (fopp a) b = fopp (fmul f a b).
Proof.
  destruct a as [|s|x], b as [|t|y]; cbn [fmul fopp]; try reflexivity.
  - rewrite Bool.negb_xorb_l. reflexivity.
  - destruct (Qeq_bool y 0); [reflexivity|]. cbn [fopp]. rewrite Bool.negb_xorb_l. reflexivity.
  - rewrite zero_opp. destruct (Qeq_bool x 0) eqn:E; [reflexivity|]. cbn [fopp]. rewrite negative_opp by exact E. rewrite Bool.negb_xorb_r. reflexivity.
  - rewrite mult_opp. apply round_opp.
Qed.
Lemma mul_opp_r f a b : fmul f a (fopp b) = fopp (fmul f a b).
Proof.
  destruct a as [|s|x], b as [|t|y]; cbn [fmul fopp]; try reflexivity.
  - rewrite Bool.negb_xorb_r. reflexivity.
  - rewrite zero_opp. destruct (Qeq_bool y 0) eqn:E; [reflexivity|]. cbn [fopp]. rewrite negative_opp by exact E. rewrite Bool.negb_xorb_r. reflexivity.
  - destruct (Qeq_bool x 0); [reflexivity|]. cbn [fopp]. rewrite Bool.negb_xorb_l. reflexivity.
  - replace (x * - y) with (- (x * y)) by (destruct x as [n d], y as [n' d']; unfold Qopp, Qmult; cbn [Qnum Qden]; rewrite Z.mul_opp_r; reflexivity). apply round_opp.
Qed.
Lemma div_opp f a b : fdiv f (fopp a) b = fopp (fdiv f a b).
Proof.
  destruct a as [|s|x], b as [|t|y]; cbn [fdiv fopp]; try reflexivity.
  - rewrite Bool.negb_xorb_l. reflexivity.
  - rewrite zero_opp. destruct (Qeq_bool y 0); [|unfold Qdiv; rewrite mult_opp; apply round_opp].
    destruct (Qeq_bool x 0) eqn:E; [reflexivity|]. cbn [fopp]. rewrite negative_opp by exact E. reflexivity.
Qed.
Lemma square_opp a : square (fopp a) = square a.
Proof. unfold square. rewrite mul_opp, mul_opp_r, opp_opp. reflexivity. Qed.
Lemma cube_opp a : cube (fopp a) = fopp (cube a).
Proof. unfold cube. rewrite square_opp. apply mul_opp. Qed.
Lemma fourth_opp a : fourth (fopp a) = fourth a.
Proof. unfold fourth. rewrite square_opp. reflexivity. Qed.
Lemma sum_opp l : forall a, fold_left (fadd b64) (map fopp l) (fopp a) = fopp (fold_left (fadd b64) l a).
Proof. induction l as [|b l IH]; intros a; [reflexivity|]. cbn [map fold_left]. rewrite add_opp. apply IH. Qed.
Lemma fsum_opp l : fsum (map fopp l) = fopp (fsum l).
Proof. apply (sum_opp l (Fin 0)). Qed.
Lemma mean_opp l : mean (map fopp l) = fopp (mean l).
Proof. unfold mean, length64. rewrite fsum_opp, map_length. apply div_opp. Qed.
Lemma deviations_opp l : deviations (map fopp l) = map fopp (deviations l).
Proof. unfold deviations. rewrite mean_opp, !map_map. apply map_ext. intros a. apply sub_opp. Qed.
Lemma variance_opp l : variance (map fopp l) = variance l.
Proof. unfold variance, length64. rewrite deviations_opp, !map_length, map_map. rewrite (map_ext (fun a => square (fopp a)) square) by exact square_opp. reflexivity. Qed.
Lemma mirror l : mean (map fopp l) = fopp (mean l) /\ variance (map fopp l) = variance l /\ std_dev (map fopp l) = std_dev l /\
  skew (map fopp l) = fopp (skew l) /\ excess_kurtosis (map fopp l) = excess_kurtosis l.
Proof.
  split; [apply mean_opp|]. split; [apply variance_opp|]. split; [unfold std_dev; rewrite variance_opp; reflexivity|]. split.
  - unfold skew, length64. rewrite variance_opp, deviations_opp, !map_length, map_map. rewrite (map_ext (fun a => cube (fopp a)) (fun a => fopp (cube a))) by exact cube_opp.
    rewrite <- (map_map cube fopp), fsum_opp, mul_opp_r. apply div_opp.
  - unfold excess_kurtosis, length64. rewrite variance_opp, deviations_opp, !map_length, map_map. rewrite (map_ext (fun a => fourth (fopp a)) fourth) by exact fourth_opp. reflexivity.
Qed.

(** ** Samples without numbers *)
Lemma empty : mean [] = NaN /\ variance [] = NaN /\ std_dev [] = NaN /\ skew [] = NaN /\ excess_kurtosis [] = NaN.
Proof. repeat split; reflexivity. Qed.
Lemma nan_sum l : forall a, (In NaN l \/ a = NaN) -> fold_left (fadd b64) l a = NaN.
Proof.
  induction l as [|b l IH]; intros a H; [destruct H as [[]|H]; exact H|]. cbn [fold_left]. apply IH. destruct H as [ [->|H] | -> ]; [|left; exact H | right; reflexivity].
  right. destruct a; reflexivity.
Qed.
Lemma nan_deviation l : l <> [] -> mean l = NaN -> In NaN (deviations l).
Proof. intros H M. destruct l as [|a l]; [congruence|]. unfold deviations. rewrite M. left. destruct a; reflexivity. Qed.
Lemma spoiled l : In NaN l -> mean l = NaN /\ variance l = NaN /\ std_dev l = NaN /\ skew l = NaN /\ excess_kurtosis l = NaN.
Proof.
  intros H. assert (M : mean l = NaN) by (unfold mean, fsum; rewrite nan_sum by (left; exact H); reflexivity).
  assert (D : In NaN (deviations l)) by (apply nan_deviation; [destruct l; [destruct H | discriminate] | exact M]).
  assert (V : variance l = NaN). { unfold variance, fsum. rewrite nan_sum; [reflexivity|]. left. apply (in_map square) in D. exact D. }
  split; [exact M|]. split; [exact V|]. split; [unfold std_dev; rewrite V; reflexivity|]. split.
  - unfold skew. rewrite V. destruct (fmul b64 _ _); reflexivity.
  - unfold excess_kurtosis. rewrite V. cbn [square fmul]. destruct (fmul b64 _ _); reflexivity.
Qed.
