(** Proofs about statistics in floating point numbers. *)
From Coq Require Import QArith Qround Qabs Qpower Lqa Lia List.
From Verif Require Import Base Tracker Width Helpers Float SpecDouble FloatBase FloatStats SpecSample.
Import ListNotations.
Open Scope Q_scope.

(** ** Rounding *)
Section Format.
Variable f : format.
Hypothesis F : sensible f.
Local Notation p := (f_prec f).
Local Notation emin := (f_emin f).
Local Notation emax := (f_emax f).

Lemma rnd_eq x x' : x == x' -> round_to f x = round_to f x'.
Proof.
  intros E. unfold round_to. assert (Z : Qeq_bool x 0 = Qeq_bool x' 0).
  { destruct (Qeq_bool x 0) eqn:A, (Qeq_bool x' 0) eqn:B; try reflexivity; exfalso.
    - apply Qeq_bool_iff in A. assert (C : Qeq_bool x' 0 = true) by (apply Qeq_bool_iff; rewrite <- E; exact A). congruence.
    - apply Qeq_bool_iff in B. assert (C : Qeq_bool x 0 = true) by (apply Qeq_bool_iff; rewrite E; exact B). congruence. }
  rewrite <- Z. destruct (Qeq_bool x 0) eqn:E0; [reflexivity|].
  assert (X : ~ x == 0) by (intros C; apply Qeq_bool_iff in C; congruence).
  assert (Ea : Qabs x == Qabs x') by (rewrite E; reflexivity). rewrite <- (binade_same _ _ (abs_pos x X) Ea).
  set (e := Z.max _ _). cbv zeta.
  assert (Ed : x / 2 ^ e == x' / 2 ^ e) by (rewrite E; reflexivity). rewrite <- (near_same _ _ Ed).
  assert (N : negative x = negative x').
  { unfold negative. f_equal. destruct (Qle_bool 0 x) eqn:A, (Qle_bool 0 x') eqn:B; try reflexivity; exfalso.
    - apply Qle_bool_iff in A. assert (C : Qle_bool 0 x' = true) by (apply Qle_bool_iff; rewrite <- E; exact A). congruence.
    - apply Qle_bool_iff in B. assert (C : Qle_bool 0 x = true) by (apply Qle_bool_iff; rewrite E; exact B). congruence. }
  rewrite N. reflexivity.
Qed.
Lemma zero_representable : representable_in f 0.
Proof. apply (small_int f F 0). assert (0 < 2 ^ p)%Z by (destruct F; apply Z.pow_pos_nonneg; lia). cbn. lia. Qed.
Lemma opp_representable x : representable_in f x -> representable_in f (- x).
Proof. intros (n & e & Hn & He & E). exists (- n)%Z, e. rewrite Z.abs_opp. repeat split; try lia. rewrite E, inject_Z_opp. ring. Qed.
Lemma comp_representable x y : x == y -> representable_in f x -> representable_in f y.
Proof. intros E (n & e & Hn & He & E'). exists n, e. repeat split; try lia. rewrite <- E. exact E'. Qed.
(** Multiples of a unit, up to [2^p] of them. *)
Lemma grid_representable k m : (Z.abs k <= 2 ^ p)%Z -> (emin <= m < emax - p)%Z -> representable_in f (inject_Z k * 2 ^ m).
Proof.
  destruct F as (F1 & F2 & F3 & F4). intros Hk Hm. destruct (Z.eq_dec (Z.abs k) (2 ^ p)) as [G|G].
  - assert (P1 : (2 ^ p = 2 ^ (p - 1) * 2)%Z) by (replace p with (Z.succ (p - 1)) at 1 by lia; rewrite Z.pow_succ_r by lia; lia).
    assert (Pp : (0 < 2 ^ (p - 1))%Z) by (apply Z.pow_pos_nonneg; lia).
    exists (Z.sgn k * 2 ^ (p - 1))%Z, (m + 1)%Z. split; [rewrite Z.abs_mul; destruct k; cbn [Z.sgn Z.abs] in *; lia|]. split; [lia|].
    rewrite two_plus. change (2 ^ 1) with 2.
    assert (Sn : (k = Z.sgn k * 2 ^ (p - 1) * 2)%Z) by (pose proof (Z.abs_sgn k); rewrite G in *; lia).
    rewrite Sn at 1. rewrite (inject_Z_mult _ 2). change (inject_Z 2) with 2. ring.
  - exists k, m. repeat split; lia.
Qed.
Lemma rnd_within x k m : (0 <= k <= 2 ^ p)%Z -> (emin <= m <= emax - p - 2)%Z -> Qabs x <= inject_Z k * 2 ^ m ->
  exists y, round_to f x = Fin y /\ Qabs y <= inject_Z k * 2 ^ m.
Proof.
  destruct F as (F1 & F2 & F3 & F4). intros Hk Hm Hx. destruct (rnd_finite f F x) as [y Hy].
  { eapply Qle_trans; [exact Hx|]. apply (Qle_trans _ (2 ^ p * 2 ^ m)).
    - apply Qmult_le_r; [apply two_pos|]. rewrite two_int by lia. rewrite <- Zle_Qle. lia.
    - rewrite <- two_plus. apply Qpower_le_compat_l; [lia | lra]. }
  exists y. split; [exact Hy|]. assert (R : representable_in f (inject_Z k * 2 ^ m)) by (apply grid_representable; lia).
  apply Qabs_Qle_condition in Hx as [H1 H2]. apply Qabs_Qle_condition. split.
  - exact (rnd_ge f F x y _ Hy (opp_representable _ R) H1).
  - exact (rnd_le f F x y _ Hy R H2).
Qed.
(** ** Signs *)
Lemma rnd_floor b x : representable_in f b -> b <= x -> 0 <= x \/ Qabs x <= 2 ^ (emax - 2) -> at_least b (round_to f x).
Proof.
  intros Rb H HI. destruct (round_to f x) as [|s|y] eqn:E; cbn [at_least]; [exact I| |exact (rnd_ge f F x y b E Rb H)].
  destruct HI as [P|P]; [|destruct (rnd_finite f F x P) as [y Hy]; congruence].
  unfold round_to in E. destruct (Qeq_bool x 0); [discriminate|]. cbv zeta in E. destruct (Qle_bool _ _); [|discriminate].
  injection E as <-. unfold negative. assert (L : Qle_bool 0 x = true) by (apply Qle_bool_iff; exact P). rewrite L. reflexivity.
Qed.
Lemma rnd_sign x : 0 <= x -> at_least 0 (round_to f x).
Proof. intros H. apply rnd_floor; [exact zero_representable | exact H | left; exact H]. Qed.
Lemma add_sign a b : at_least 0 a -> at_least 0 b -> at_least 0 (fadd f a b).
Proof.
  destruct a as [|s|x], b as [|t|y]; cbn [at_least fadd]; intros A B; try exact I; subst; try reflexivity.
  apply rnd_sign. lra.
Qed.
Lemma not_negative x : 0 <= x -> negative x = false.
Proof. intros H. unfold negative. apply Qle_bool_iff in H. rewrite H. reflexivity. Qed.
Lemma div_sign a b : at_least 0 a -> at_least 0 b -> at_least 0 (fdiv f a b).
Proof.
  destruct a as [|s|x], b as [|t|y]; cbn [at_least fdiv]; intros A B; try exact I; subst; try apply Qle_refl.
  - rewrite not_negative by exact B. reflexivity.
  - destruct (Qeq_bool y 0) eqn:E.
    + destruct (Qeq_bool x 0); [exact I|]. cbn. rewrite not_negative by exact A. reflexivity.
    + apply rnd_sign. assert (Y : ~ y == 0) by (intros C; apply Qeq_bool_iff in C; congruence).
      apply Qle_shift_div_l; [|lra]. destruct (Qle_lt_or_eq _ _ B) as [H|H]; [exact H | symmetry in H; contradiction].
Qed.
Lemma mul_sign a b : at_least 0 a -> at_least 0 b -> at_least 0 (fmul f a b).
Proof.
  destruct a as [|s|x], b as [|t|y]; cbn [at_least fmul]; intros A B; try exact I; subst; try reflexivity.
  - destruct (Qeq_bool y 0); [exact I|]. cbn. rewrite not_negative by exact B. reflexivity.
  - destruct (Qeq_bool x 0); [exact I|]. cbn. rewrite not_negative by exact A. reflexivity.
  - apply rnd_sign. apply Qmult_le_0_compat; assumption.
Qed.
Lemma mul_self_sign a : at_least 0 (fmul f a a).
Proof.
  destruct a as [|s|x]; cbn [fmul at_least]; [exact I | destruct s; reflexivity|]. apply rnd_sign.
  destruct (Qlt_le_dec x 0); [setoid_replace (x * x) with (- x * - x) by ring|]; apply Qmult_le_0_compat; lra.
Qed.
Lemma int_sign n : (0 <= n)%Z -> at_least 0 (of_int f n).
Proof. intros H. apply rnd_sign. change 0 with (inject_Z 0). rewrite <- Zle_Qle. exact H. Qed.
End Format.

Lemma fold_sign l : forall a, at_least 0 a -> (forall b, In b l -> at_least 0 b) -> at_least 0 (fold_left (fadd b64) l a).
Proof.
  induction l as [|b l IH]; intros a A H; [exact A|]. cbn [fold_left]. apply IH.
  - apply (add_sign b64 sensible64); [exact A | apply H; left; reflexivity].
  - intros c Hc. apply H. right. exact Hc.
Qed.
Lemma fsum_sign (g : float -> float) l : (forall a, at_least 0 (g a)) -> at_least 0 (fsum (map g l)).
Proof. intros H. apply fold_sign; [apply Qle_refl|]. intros b Hb. apply in_map_iff in Hb as (v & <- & _). apply H. Qed.
Lemma variance_sign l : at_least 0 (variance l).
Proof.
  apply (div_sign b64 sensible64); [|apply (int_sign b64 sensible64); lia]. apply fsum_sign. intros a. apply (mul_self_sign b64 sensible64).
Qed.
Lemma kurtosis_floor l : at_least (- (3)) (excess_kurtosis l).
Proof.
  unfold excess_kurtosis, fsub. cbn [fopp]. set (q := fdiv b64 (fmul b64 _ _) _).
  assert (A : at_least 0 q).
  { apply (div_sign b64 sensible64); [|apply (mul_self_sign b64 sensible64)]. apply (mul_sign b64 sensible64).
    - apply (div_sign b64 sensible64); [cbn; lra | apply (int_sign b64 sensible64); lia].
    - apply fsum_sign. intros a. apply (mul_self_sign b64 sensible64). }
  destruct q as [|s|x]; cbn [fadd at_least] in *; [exact I | exact A|].
  apply (rnd_floor b64 sensible64).
  - apply (small_int b64 sensible64 (-3)). reflexivity.
  - lra.
  - destruct (Qlt_le_dec x 3); [right | left; lra].
    apply (Qle_trans _ 3); [apply Qabs_Qle_condition; lra | cbn [f_emax b64]; vm_compute; discriminate].
Qed.
