(** Proofs about samples whose sums are exact, samples without spread and mirrored samples. *)
From Coq Require Import QArith Qround Qabs Qpower Lqa Lia List.
From Verif Require Import Base Tracker Width Helpers Float SpecDouble FloatBase FloatStats SpecSample FloatStatsProof FloatStatsMean.
Import ListNotations.
Open Scope Q_scope.

(** ** Exact sums *)
Definition zsum (l : list Z) : Z := fold_right Z.add 0%Z l.
Lemma grid_sum q ks : (-1074 <= q <= 900)%Z -> forall a K, (Z.abs K + sizes ks <= 2 ^ 53)%Z -> a == inject_Z K * 2 ^ q ->
  exists s, fold_left (fadd b64) (map Fin (map (fun k => inject_Z k * 2 ^ q) ks)) (Fin a) = Fin s /\ s == inject_Z (K + zsum ks) * 2 ^ q.
Proof.
  intros Hq. induction ks as [|k ks IH]; intros a K H Ha; cbn [map fold_left zsum fold_right sizes] in *.
  - exists a. rewrite Z.add_0_r. split; [reflexivity | exact Ha].
  - fold (zsum ks). fold (sizes ks) in H. cbn [fadd].
    assert (P : (0 <= sizes ks)%Z) by (clear; induction ks as [|x ks IH]; cbn [sizes fold_right]; [lia | fold (sizes ks); lia]).
    assert (E : a + inject_Z k * 2 ^ q == inject_Z (K + k) * 2 ^ q) by (rewrite Ha, inject_Z_plus; ring).
    assert (R : representable_in b64 (a + inject_Z k * 2 ^ q)).
    { apply (comp_representable b64 (inject_Z (K + k) * 2 ^ q)); [symmetry; exact E|]. apply (grid_representable b64 sensible64); cbn [f_prec f_emin f_emax b64]; lia. }
    destruct (rnd_exact b64 sensible64 _ R) as (y & Hy & Ey). rewrite Hy.
    destruct (IH y (K + k)%Z) as (s & Hs & Es); [lia | rewrite Ey; exact E|]. exists s. split; [exact Hs|]. rewrite Es. rewrite Z.add_assoc. reflexivity.
Qed.
Lemma grid_total q ks : total (map (fun k => inject_Z k * 2 ^ q) ks) == inject_Z (zsum ks) * 2 ^ q.
Proof.
  induction ks as [|k ks IH]; cbn [map total fold_right zsum]; [change (inject_Z 0) with 0; ring|].
  fold (zsum ks). fold (total (map (fun k => inject_Z k * 2 ^ q) ks)). rewrite IH, inject_Z_plus. ring.
Qed.
Lemma mean_grid q l : (-1074 <= q <= 900)%Z -> on_grid q l -> (0 < Z.of_nat (length l) <= 2 ^ 53)%Z -> mean (map Fin l) = round64 (average l).
Proof.
  intros Hq (ks & -> & Hs) Hn. destruct (grid_sum q ks Hq 0 0) as (s & H & Es); [cbn [Z.abs]; lia | change (inject_Z 0) with 0; ring|].
  unfold mean, fsum, length64. rewrite H, map_length, div_int by exact Hn. unfold round64. apply rnd_eq. unfold average. rewrite grid_total, Es, Z.add_0_l. reflexivity.
Qed.

(** ** Zeros *)
Lemma rnd_zero f x : x == 0 -> round_to f x = Fin 0.
Proof. intros H. unfold round_to. apply Qeq_bool_iff in H. rewrite H. reflexivity. Qed.
Definition null (a : float) : Prop := exists x, a = Fin x /\ x == 0.
Lemma null_add a b : null a -> null b -> null (fadd b64 a b).
Proof. intros (x & -> & Hx) (y & -> & Hy). cbn [fadd]. rewrite rnd_zero by (rewrite Hx, Hy; reflexivity). exists 0. split; reflexivity. Qed.
Lemma null_sum l : forall a, null a -> (forall b, In b l -> null b) -> null (fold_left (fadd b64) l a).
Proof.
  induction l as [|b l IH]; intros a Ha H; [exact Ha|]. cbn [fold_left]. apply IH.
  - apply null_add; [exact Ha | apply H; left; reflexivity].
  - intros c Hc. apply H. right. exact Hc.
Qed.
Lemma null_zero : null (Fin 0).
Proof. exists 0. split; reflexivity. Qed.
Lemma null_square a : null a -> square a = Fin 0.
Proof. intros (x & -> & Hx). unfold square. cbn [fmul]. apply rnd_zero. rewrite Hx. reflexivity. Qed.
(** No deviation: no variance. *)
Lemma variance_null l : (0 < Z.of_nat (length l) <= 2 ^ 53)%Z -> (forall a, In a (deviations l) -> null a) -> variance l = Fin 0.
Proof.
  intros Hn H. unfold variance, length64, fsum.
  destruct (null_sum (map square (deviations l)) (Fin 0) null_zero) as (s & Hs & Es).
  { intros b Hb. apply in_map_iff in Hb as (a & <- & Ha). rewrite null_square by (apply H; exact Ha). apply null_zero. }
  rewrite Hs, div_int by exact Hn. apply rnd_zero. rewrite Es. unfold Qdiv. ring.
Qed.
Lemma inverse_finite n : (0 < n <= 2 ^ 53)%Z -> exists x, fdiv b64 (Fin 1) (of_int b64 n) = Fin x.
Proof.
  intros H. rewrite div_int by exact H. apply (rnd_finite b64 sensible64).
  assert (P : 1 <= inject_Z n) by (change 1 with (inject_Z 1); rewrite <- Zle_Qle; lia).
  apply (Qle_trans _ 1); [|vm_compute; discriminate]. rewrite Qabs_pos; [apply Qle_shift_div_r | apply Qle_shift_div_l]; lra.
Qed.
Lemma kurtosis_null l v : (0 < Z.of_nat (length l) <= 2 ^ 53)%Z -> variance l = Fin v -> v == 0 ->
  (forall a, In a (deviations l) -> null (fourth a)) -> excess_kurtosis l = NaN.
Proof.
  intros Hn Hv V H. unfold excess_kurtosis, length64. destruct (inverse_finite _ Hn) as (x & ->).
  rewrite Hv. rewrite (null_square (Fin v)) by (exists v; split; [reflexivity | exact V]). unfold fsum.
  destruct (null_sum (map fourth (deviations l)) (Fin 0) null_zero) as (s & Hs & Es).
  { intros b Hb. apply in_map_iff in Hb as (a & <- & Ha). apply H. exact Ha. }
  rewrite Hs. cbn [fmul]. rewrite rnd_zero by (rewrite Es; ring). reflexivity.
Qed.

Lemma skew_null l v : (0 < Z.of_nat (length l) <= 2 ^ 53)%Z -> variance l = Fin v -> v == 0 ->
  (forall a, In a (deviations l) -> null (cube a)) -> skew l = NaN.
Proof.
  intros Hn Hv V H. unfold skew, length64. destruct (inverse_finite _ Hn) as (x & ->).
  rewrite Hv. cbn [power15]. apply Qeq_bool_iff in V. rewrite V. unfold fsum.
  destruct (null_sum (map cube (deviations l)) (Fin 0) null_zero) as (s & Hs & Es).
  { intros b Hb. apply in_map_iff in Hb as (a & <- & Ha). apply H. exact Ha. }
  rewrite Hs. cbn [fmul]. rewrite rnd_zero by (rewrite Es; ring). reflexivity.
Qed.

(** ** Sums of numbers that are not negative *)
Lemma fold_number l : forall a s, fold_left (fadd b64) l a = Fin s -> exists x, a = Fin x.
Proof.
  induction l as [|b l IH]; intros a s H; cbn [fold_left] in H; [eauto|]. apply IH in H as (y & H).
  destruct a as [|t|x], b as [|t'|x']; cbn [fadd] in H; try discriminate; [destruct (eqb t t'); discriminate | eauto].
Qed.
Lemma fold_each l : forall a s, (forall b, In b l -> exists x, b = Fin x /\ 0 <= x /\ representable_in b64 x) -> 0 <= a -> representable_in b64 a ->
  fold_left (fadd b64) l (Fin a) = Fin s -> a <= s /\ forall x, In (Fin x) l -> x <= s.
Proof.
  induction l as [|b l IH]; intros a s H A R E; cbn [fold_left] in E.
  - injection E as <-. split; [apply Qle_refl | intros x []].
  - destruct (H b (or_introl eq_refl)) as (x & -> & X & Rx). cbn [fadd] in E. destruct (fold_number _ _ _ E) as (y & Hy). rewrite Hy in E.
    assert (Ay : a <= y) by (apply (rnd_ge b64 sensible64 _ _ _ Hy R); lra). assert (Xy : x <= y) by (apply (rnd_ge b64 sensible64 _ _ _ Hy Rx); lra).
    destruct (IH y s) as [S1 S2]; [intros b Hb; apply H; right; exact Hb | lra | exact (rnd_lands b64 sensible64 _ _ Hy) | exact E|].
    split; [lra|]. intros z [Hz|Hz]; [injection Hz as <-; lra | apply S2; exact Hz].
Qed.
(** Products that vanish. *)
Lemma rnd_vanish x : Qabs x <= 2 ^ (-1080) -> null (round_to b64 x).
Proof.
  intros H. destruct (rnd_finite b64 sensible64 x) as (y & Hy); [eapply Qle_trans; [exact H | apply Qpower_le_compat_l; [cbn; lia | lra]]|].
  rewrite Hy. exists y. split; [reflexivity|]. pose proof (rnd_best b64 sensible64 _ _ 0 Hy (zero_representable b64 sensible64)) as B.
  assert (Ay : Qabs y <= 2 ^ (-1079)).
  { assert (E : 2 ^ (-1079) == 2 ^ (-1080) + 2 ^ (-1080)) by (change (-1079)%Z with (1 + -1080)%Z; rewrite two_plus; change (2 ^ 1) with 2; ring). rewrite E.
    assert (T : Qabs y <= Qabs (y - x) + Qabs x) by (setoid_replace y with ((y - x) + x) at 1 by ring; apply Qabs_triangle).
    assert (O : Qabs (0 - x) == Qabs x) by (setoid_replace (0 - x) with (- x) by ring; apply Qabs_opp). lra. }
  destruct (rnd_lands b64 sensible64 _ _ Hy) as (n & e & Hn & He & E). cbn [f_emin b64] in He.
  destruct (Z.eq_dec n 0) as [->|N]; [rewrite E; change (inject_Z 0) with 0; ring|exfalso].
  rewrite E, abs_mult_pos, inject_abs in Ay by apply two_pos. assert (L : inject_Z 1 * 2 ^ e <= 2 ^ (-1079)).
  { eapply Qle_trans; [|exact Ay]. apply Qmult_le_r; [apply two_pos|]. rewrite <- Zle_Qle. lia. }
  change (inject_Z 1) with 1 in L. rewrite Qmult_1_l in L. assert (C : 2 ^ (-1079) < 2 ^ e) by (apply Qpower_lt_compat_l; [lia | lra]). lra.
Qed.

(** ** The variance and the squares *)
Lemma deviations_finite m l : (-500 <= m <= 480)%Z -> (0 < Z.of_nat (length l) <= 2 ^ 53)%Z -> within (2 ^ m) l ->
  exists y, mean (map Fin l) = Fin y /\ forall x, In x l -> exists d s,
    fsub b64 (Fin x) (Fin y) = Fin d /\ round_to b64 (x - y) = Fin d /\ square (Fin d) = Fin s /\ 0 <= s /\ representable_in b64 s.
Proof.
  intros Hm Hn W. destruct (mean_bound m ltac:(lia) l Hn W) as (y & Hy & By & _). exists y. split; [exact Hy|]. intros x Hx.
  assert (H1 : 2 ^ (m + 1) == 2 ^ m * 2) by (rewrite two_plus; reflexivity).
  assert (B : Qabs (x + - y) <= inject_Z 1 * 2 ^ (m + 1)).
  { eapply Qle_trans; [apply Qabs_triangle|]. rewrite Qabs_opp, H1. change (inject_Z 1) with 1. pose proof (W x Hx). lra. }
  destruct (rnd_within b64 sensible64 _ 1 (m + 1) ltac:(cbn [f_prec b64]; lia) ltac:(cbn [f_prec f_emin f_emax b64]; lia) B) as (d & Hd & Bd).
  assert (Bs : Qabs (d * d) <= inject_Z 1 * 2 ^ (2 * m + 2)).
  { rewrite Qabs_Qmult. change (inject_Z 1) with 1 in *. replace (2 * m + 2)%Z with ((m + 1) + (m + 1))%Z by lia. rewrite two_plus.
    pose proof (Qabs_nonneg d). pose proof (two_pos (m + 1)). nra. }
  destruct (rnd_within b64 sensible64 _ 1 (2 * m + 2) ltac:(cbn [f_prec b64]; lia) ltac:(cbn [f_prec f_emin f_emax b64]; lia) Bs) as (s & Hs & _).
  exists d, s. split; [exact Hd|]. split; [exact Hd|]. split; [exact Hs|]. split; [|exact (rnd_lands b64 sensible64 _ _ Hs)].
  pose proof (mul_self_sign b64 sensible64 (Fin d)) as S. cbn [fmul] in S. rewrite Hs in S. exact S.
Qed.
(** The variance is zero: so are the third and fourth powers. *)
Lemma shape_none m l v : (-500 <= m <= 480)%Z -> (0 < Z.of_nat (length l) <= 2 ^ 53)%Z -> within (2 ^ m) l ->
  variance (map Fin l) = Fin v -> v == 0 -> skew (map Fin l) = NaN /\ excess_kurtosis (map Fin l) = NaN.
Proof.
  intros Hm Hn W Hv V. assert (Hn' : (0 < Z.of_nat (length (map Fin l)) <= 2 ^ 53)%Z) by (rewrite map_length; exact Hn).
  enough (A : forall a, In a (deviations (map Fin l)) -> null (cube a) /\ null (fourth a)).
  { split; [apply (skew_null _ v Hn' Hv V) | apply (kurtosis_null _ v Hn' Hv V)]; intros a Ha; apply (A a Ha). }
  destruct (deviations_finite m l Hm Hn W) as (y & Hy & D).
  unfold variance, length64 in Hv. unfold fsum in Hv. destruct (fold_left (fadd b64) (map square (deviations (map Fin l))) (Fin 0)) as [|t|s] eqn:S.
  - cbn in Hv. discriminate.
  - destruct (int_exact64 (Z.of_nat (length (map Fin l))) ltac:(lia)) as (z & Hz & _). rewrite Hz in Hv. cbn in Hv. discriminate.
  - rewrite div_int in Hv by exact Hn'. set (n := Z.of_nat (length (map Fin l))) in *.
    assert (P : 0 < inject_Z n) by (change 0 with (inject_Z 0); rewrite <- Zlt_Qlt; lia).
    assert (Sm : s <= 2 ^ (-1021)).
    { destruct (Qlt_le_dec (2 ^ (-1021)) s) as [L|L]; [exfalso|exact L].
      assert (G : 2 ^ (-1074) <= v).
      { apply (rnd_ge b64 sensible64 _ _ _ Hv); [apply (power_representable b64 sensible64); cbn [f_emin f_emax b64]; lia|]. apply Qle_shift_div_l; [exact P|].
        apply (Qle_trans _ (2 ^ (-1074) * 2 ^ 53)); [|rewrite <- two_plus; change (-1074 + 53)%Z with (-1021)%Z; apply Qlt_le_weak; exact L].
        rewrite !(Qmult_comm (2 ^ (-1074))). apply Qmult_le_r; [apply two_pos|]. rewrite two_int by lia. rewrite <- Zle_Qle. lia. }
      pose proof (two_pos (-1074)). lra. }
    destruct (fold_each (map square (deviations (map Fin l))) 0 s) as [_ Each]; [| apply Qle_refl | exact (zero_representable b64 sensible64) | exact S|].
    { intros b Hb. apply in_map_iff in Hb as (a & <- & Ha). unfold deviations in Ha. rewrite map_map in Ha. apply in_map_iff in Ha as (x & <- & Hx).
      rewrite Hy. destruct (D x Hx) as (d & z & H1 & _ & H3 & H4 & H5). exists z. rewrite H1, H3. auto. }
    intros a Ha. unfold deviations in Ha. rewrite map_map in Ha. apply in_map_iff in Ha as (x & <- & Hx). rewrite Hy in *.
    destruct (D x Hx) as (d & z & H1 & _ & H3 & H4 & H5). rewrite H1.
    assert (Z1 : z <= s). { apply Each. rewrite <- H3. apply in_map. unfold deviations. rewrite map_map, Hy. rewrite <- H1. apply (in_map (fun v => fsub b64 (Fin v) (Fin y))). exact Hx. }
    assert (Ld : Qabs d <= 2 ^ (-59)).
    { destruct (Qlt_le_dec (2 ^ (-59)) (Qabs d)) as [L|L]; [exfalso | exact L].
      assert (G : 2 ^ (-118) <= z).
      { apply (rnd_ge b64 sensible64 _ _ _ H3); [apply (power_representable b64 sensible64); cbn [f_emin f_emax b64]; lia|].
        assert (E : d * d == Qabs d * Qabs d) by (rewrite <- Qabs_Qmult; symmetry; apply Qabs_pos; destruct (Qlt_le_dec d 0); [setoid_replace (d * d) with (- d * - d) by ring|]; apply Qmult_le_0_compat; lra).
        rewrite E. change (-118)%Z with (-59 + -59)%Z. rewrite two_plus. pose proof (two_pos (-59)). nra. }
      assert (C : 2 ^ (-1021) < 2 ^ (-118)) by (apply Qpower_lt_compat_l; [lia | lra]). lra. }
    split.
    { unfold cube. rewrite H3. cbn [fmul]. apply rnd_vanish. rewrite Qabs_Qmult, (Qabs_pos z) by exact H4.
      apply (Qle_trans _ (2 ^ (-59) * 2 ^ (-1021))); [pose proof (two_pos (-1021)); pose proof (Qabs_nonneg d); nra|]. rewrite <- two_plus. apply Qpower_le_compat_l; [lia | lra]. }
    unfold fourth. rewrite H3.
    unfold square. cbn [fmul]. apply rnd_vanish. rewrite Qabs_Qmult, Qabs_pos by exact H4.
    apply (Qle_trans _ (2 ^ (-1021) * 2 ^ (-1021))); [pose proof (two_pos (-1021)); nra|]. rewrite <- two_plus. apply Qpower_le_compat_l; [lia | lra].
Qed.

(** ** Samples on a grid *)
Lemma grid_within q ks : (sizes ks <= 2 ^ 53)%Z -> within (2 ^ (53 + q)) (map (fun k => inject_Z k * 2 ^ q) ks).
Proof.
  intros H x Hx. apply in_map_iff in Hx as (k & <- & Hk). rewrite abs_mult_pos, inject_abs, two_plus by apply two_pos. apply Qmult_le_r; [apply two_pos|].
  rewrite two_int by lia. rewrite <- Zle_Qle. assert (S : (Z.abs k <= sizes ks)%Z); [|lia]. clear H. induction ks as [|j ks IH]; [destruct Hk|].
  assert (P : (0 <= sizes ks)%Z) by (clear; induction ks as [|x ks IH]; cbn [sizes fold_right]; [lia | fold (sizes ks); lia]).
  cbn [sizes fold_right]. fold (sizes ks). destruct Hk as [->|Hk]; [lia|]. specialize (IH Hk). lia.
Qed.
Lemma average_const l x : (forall y, In y l -> y == x) -> l <> [] -> average l == x.
Proof.
  intros H Hl. assert (T : total l == inject_Z (Z.of_nat (length l)) * x).
  { clear Hl. induction l as [|y l IH]; [cbn [total fold_right length]; change (inject_Z (Z.of_nat 0)) with 0; ring|].
    cbn [total fold_right length]. fold (total l). rewrite IH by (intros z Hz; apply H; right; exact Hz). rewrite (H y (or_introl eq_refl)).
    rewrite Nat2Z.inj_succ, <- Z.add_1_r, inject_succ. ring. }
  unfold average. rewrite T. assert (P : 0 < inject_Z (Z.of_nat (length l))). { change 0 with (inject_Z 0). rewrite <- Zlt_Qlt. destruct l; [congruence | cbn [length]; lia]. }
  field. lra.
Qed.
Lemma grid_constant q l : (-1074 <= q <= 900)%Z -> on_grid q l -> (0 < Z.of_nat (length l) <= 2 ^ 53)%Z -> constant l ->
  variance (map Fin l) = Fin 0 /\ skew (map Fin l) = NaN /\ excess_kurtosis (map Fin l) = NaN.
Proof.
  intros Hq G Hn C. pose proof (mean_grid q l Hq G Hn) as M. destruct l as [|x l]; [cbn in Hn; lia|]. set (s := x :: l) in *.
  assert (A : average s == x). { apply average_const; [|discriminate]. intros y Hy. apply C; [exact Hy | left; reflexivity]. }
  assert (R : representable_in b64 x).
  { destruct G as (ks & E & Hs). assert (Hx : In x (map (fun k => inject_Z k * 2 ^ q) ks)) by (rewrite <- E; left; reflexivity).
    pose proof (grid_within q ks Hs x Hx) as B. apply in_map_iff in Hx as (k & <- & _). apply (grid_representable b64 sensible64); cbn [f_prec f_emin f_emax b64]; [|lia].
    rewrite abs_mult_pos, inject_abs, two_plus in B by apply two_pos. apply Qmult_le_r in B; [|apply two_pos]. rewrite two_int in B by lia. rewrite <- Zle_Qle in B. exact B. }
  destruct (rnd_exact b64 sensible64 _ R) as (y & Hy & Ey). unfold round64 in M. rewrite (rnd_eq b64 _ _ A), Hy in M.
  assert (Hn' : (0 < Z.of_nat (length (map Fin s)) <= 2 ^ 53)%Z) by (rewrite map_length; exact Hn).
  assert (D : forall a, In a (deviations (map Fin s)) -> null a).
  { intros a Ha. unfold deviations in Ha. rewrite M, map_map in Ha. apply in_map_iff in Ha as (z & <- & Hz).
    unfold fsub. cbn [fopp fadd]. assert (Z : z == x) by (apply C; [exact Hz | left; reflexivity]). rewrite rnd_zero by (rewrite Z, Ey; ring). apply null_zero. }
  pose proof (variance_null _ Hn' D) as V. split; [exact V|]. split; [apply (skew_null _ 0 Hn' V (Qeq_refl 0)) | apply (kurtosis_null _ 0 Hn' V (Qeq_refl 0))].
  { intros a Ha. unfold cube. rewrite (null_square a) by (apply D; exact Ha). destruct (D a Ha) as (d & -> & Ed). cbn [fmul]. rewrite rnd_zero by ring. apply null_zero. }
  intros a Ha. unfold fourth. rewrite (null_square a) by (apply D; exact Ha). rewrite null_square by apply null_zero. apply null_zero.
Qed.
Lemma grid_spread q l x x' : (-480 <= q <= 400)%Z -> on_grid q l -> (Z.of_nat (length l) <= 2 ^ 53)%Z -> In x l -> In x' l -> ~ x == x' ->
  exists v, variance (map Fin l) = Fin v /\ 2 ^ (2 * q - 55) <= v.
Proof.
  intros Hq (ks & El & Hs) Hn Hx Hx' N. assert (Hn0 : (0 < Z.of_nat (length l) <= 2 ^ 53)%Z) by (destruct l; [destruct Hx | cbn [length] in *; lia]).
  assert (W : within (2 ^ (53 + q)) l) by (rewrite El; apply grid_within; exact Hs).
  destruct (variance_bound (53 + q) l ltac:(lia) Hn0 W) as (v & Hv & V0 & _). exists v. split; [exact Hv|].
  destruct (deviations_finite (53 + q) l ltac:(lia) Hn0 W) as (y & Hy & D).
  assert (Far : 2 ^ q <= Qabs (x - x')).
  { rewrite El in Hx, Hx'. apply in_map_iff in Hx as (k & <- & _). apply in_map_iff in Hx' as (k' & <- & _).
    setoid_replace (inject_Z k * 2 ^ q - inject_Z k' * 2 ^ q) with (inject_Z (k - k') * 2 ^ q) by (replace (k - k')%Z with (k + - k')%Z by lia; rewrite inject_Z_plus, inject_Z_opp; ring).
    rewrite abs_mult_pos, inject_abs by apply two_pos. rewrite <- (Qmult_1_l (2 ^ q)) at 1. apply Qmult_le_r; [apply two_pos|]. change 1 with (inject_Z 1). rewrite <- Zle_Qle.
    assert (k <> k') by (intros ->; apply N; reflexivity). lia. }
  assert (Half : 2 ^ q == 2 ^ (q - 1) + 2 ^ (q - 1)) by (replace q with (1 + (q - 1))%Z at 1 by lia; rewrite two_plus; change (2 ^ 1) with 2; ring).
  assert (Ex : exists z, In z l /\ 2 ^ (q - 1) <= Qabs (z - y)).
  { destruct (Qlt_le_dec (Qabs (x - y)) (2 ^ (q - 1))) as [L|L]; [|exists x; split; assumption]. exists x'. split; [exact Hx'|].
    assert (T : Qabs (x - x') <= Qabs (x - y) + Qabs (x' - y)).
    { rewrite <- (Qabs_opp (x' - y)). setoid_replace (x - x') with ((x - y) + - (x' - y)) by ring. apply Qabs_triangle. } lra. }
  destruct Ex as (z & Hz & Lz). destruct (D z Hz) as (d & w & H1 & H2 & H3 & H4 & H5).
  assert (Pq : representable_in b64 (2 ^ (q - 1))) by (apply (power_representable b64 sensible64); cbn [f_emin f_emax b64]; lia).
  assert (Ld : 2 ^ (q - 1) <= Qabs d).
  { destruct (Qlt_le_dec (z - y) 0) as [L|L].
    - rewrite Qabs_neg in Lz by lra. assert (d <= - (2 ^ (q - 1))) by (apply (rnd_le b64 sensible64 _ _ _ H2 (opp_representable b64 _ Pq)); lra). rewrite Qabs_neg; pose proof (two_pos (q - 1)); lra.
    - rewrite Qabs_pos in Lz by lra. assert (2 ^ (q - 1) <= d) by (apply (rnd_ge b64 sensible64 _ _ _ H2 Pq); lra). rewrite Qabs_pos; pose proof (two_pos (q - 1)); lra. }
  assert (Lw : 2 ^ (2 * q - 2) <= w).
  { apply (rnd_ge b64 sensible64 _ _ _ H3); [apply (power_representable b64 sensible64); cbn [f_emin f_emax b64]; lia|].
    replace (2 * q - 2)%Z with ((q - 1) + (q - 1))%Z by lia. rewrite two_plus.
    assert (E : d * d == Qabs d * Qabs d) by (rewrite <- Qabs_Qmult; symmetry; apply Qabs_pos; destruct (Qlt_le_dec d 0); [setoid_replace (d * d) with (- d * - d) by ring|]; apply Qmult_le_0_compat; lra).
    rewrite E. pose proof (two_pos (q - 1)). nra. }
  unfold variance, length64, fsum in Hv. destruct (fold_left (fadd b64) (map square (deviations (map Fin l))) (Fin 0)) as [|t|s] eqn:S.
  - cbn in Hv. discriminate.
  - destruct (int_exact64 (Z.of_nat (length (map Fin l)))) as (z' & Hz' & _); [rewrite map_length; lia|]. rewrite Hz' in Hv. cbn in Hv. discriminate.
  - rewrite map_length, div_int in Hv by exact Hn0. set (n := Z.of_nat (length l)) in *.
    assert (P : 0 < inject_Z n) by (change 0 with (inject_Z 0); rewrite <- Zlt_Qlt; lia).
    destruct (fold_each (map square (deviations (map Fin l))) 0 s) as [_ Each]; [| apply Qle_refl | exact (zero_representable b64 sensible64) | exact S|].
    { intros b Hb. apply in_map_iff in Hb as (a & <- & Ha). unfold deviations in Ha. rewrite map_map in Ha. apply in_map_iff in Ha as (x0 & <- & Hx0).
      rewrite Hy. destruct (D x0 Hx0) as (d0 & z0 & G1 & _ & G3 & G4 & G5). exists z0. rewrite G1, G3. auto. }
    assert (Z1 : w <= s). { apply Each. rewrite <- H3. apply in_map. unfold deviations. rewrite map_map, Hy. rewrite <- H1. apply (in_map (fun v => fsub b64 (Fin v) (Fin y))). exact Hz. }
    apply (rnd_ge b64 sensible64 _ _ _ Hv); [apply (power_representable b64 sensible64); cbn [f_emin f_emax b64]; lia|]. apply Qle_shift_div_l; [exact P|].
    apply (Qle_trans _ (2 ^ (2 * q - 55) * 2 ^ 53)).
    + rewrite !(Qmult_comm (2 ^ (2 * q - 55))). apply Qmult_le_r; [apply two_pos|]. rewrite two_int by lia. rewrite <- Zle_Qle. lia.
    + rewrite <- two_plus. replace (2 * q - 55 + 53)%Z with (2 * q - 2)%Z by lia. lra.
Qed.
