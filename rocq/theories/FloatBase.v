(** Rounding to a floating point format. *)
From Coq Require Import QArith Qround Qabs Qpower Lqa Lia.
From Verif Require Import Base Width Helpers Float SpecDouble.
Open Scope Q_scope.

Lemma near_half q : Qabs (inject_Z (nearest_even q) - q) <= 1 # 2.
Proof.
  unfold nearest_even. pose proof (Qfloor_le q) as L. pose proof (Qlt_floor q) as U. rewrite inject_Z_plus in U.
  set (n := Qfloor q) in *. change (inject_Z 1) with 1 in U. apply Qabs_Qle_condition.
  destruct (Qcompare (q - inject_Z n) (1 # 2)) eqn:E.
  - apply Qeq_alt in E. destruct (Z.even n); rewrite ?inject_Z_plus; change (inject_Z 1) with 1; split; lra.
  - apply Qlt_alt in E. split; lra.
  - apply Qgt_alt in E. rewrite inject_Z_plus. change (inject_Z 1) with 1. split; lra.
Qed.
Lemma near_int q z : q == inject_Z z -> nearest_even q = z.
Proof.
  intros H. unfold nearest_even. assert (E : Qfloor q = z) by (rewrite H; apply Qfloor_Z). rewrite E.
  destruct (Qcompare (q - inject_Z z) (1 # 2)) eqn:C; [apply Qeq_alt in C | | apply Qgt_alt in C]; try lra. reflexivity.
Qed.

Lemma two_pos k : 0 < 2 ^ k.
Proof. apply Qpower_0_lt. lra. Qed.
Lemma two_plus a b : 2 ^ (a + b) == 2 ^ a * 2 ^ b.
Proof. apply Qpower_plus. lra. Qed.
Lemma two_int a : (0 <= a)%Z -> 2 ^ a == inject_Z (2 ^ a).
Proof. intros. symmetry. exact (Zpower_Qpower 2 a H). Qed.

Lemma binade_bounds x : 0 < x -> 2 ^ binade x <= x /\ x < 2 ^ (binade x + 1).
Proof.
  intros Hx. destruct x as [n d]. unfold binade. cbn [Qnum Qden].
  assert (Hn : (0 < n)%Z) by (unfold Qlt in Hx; cbn in Hx; lia).
  pose proof (Z.log2_spec n Hn) as Ln. pose proof (Z.log2_spec (Z.pos d) (Pos2Z.is_pos d)) as Ld.
  set (a := Z.log2 n) in *. set (b := Z.log2 (Z.pos d)) in *.
  assert (Ha : (0 <= a)%Z) by apply Z.log2_nonneg. assert (Hb : (0 <= b)%Z) by apply Z.log2_nonneg.
  assert (X : n # d == inject_Z n / inject_Z (Z.pos d)) by apply Qmake_Qdiv.
  assert (Dp : 0 < inject_Z (Z.pos d)) by reflexivity.
  assert (M : (n # d) * inject_Z (Z.pos d) == inject_Z n) by (rewrite X; field; lra).
  assert (N1 : 2 ^ a <= inject_Z n) by (rewrite two_int by lia; rewrite <- Zle_Qle; lia).
  assert (N2 : inject_Z n < 2 ^ (a + 1)) by (rewrite two_int by lia; rewrite <- Zlt_Qlt; lia).
  assert (D1 : 2 ^ b <= inject_Z (Z.pos d)) by (rewrite two_int by lia; rewrite <- Zle_Qle; lia).
  assert (D2 : inject_Z (Z.pos d) < 2 ^ (b + 1)) by (rewrite two_int by lia; rewrite <- Zlt_Qlt; lia).
  assert (A : 2 ^ a == 2 ^ (a - b) * 2 ^ b) by (rewrite <- two_plus; replace (a - b + b)%Z with a by lia; reflexivity).
  assert (T : forall k, 2 ^ (k + 1) == 2 * 2 ^ k) by (intros k; rewrite two_plus; change (2 ^ 1) with 2; ring).
  assert (B : 2 ^ (a - b) == 2 * 2 ^ (a - b - 1)) by (rewrite <- T; replace (a - b - 1 + 1)%Z with (a - b)%Z by lia; reflexivity).
  pose proof (two_pos b). pose proof (two_pos (a - b)). pose proof (two_pos (a - b - 1)).
  rewrite T in N2, D2.
  destruct (Qle_bool (2 ^ (a - b)) (n # d)) eqn:E.
  - apply Qle_bool_iff in E. split; [exact E|]. rewrite T. apply (Qmult_lt_r _ _ (inject_Z (Z.pos d)) Dp). rewrite M.
    apply (Qlt_le_trans _ (2 * (2 ^ (a - b) * 2 ^ b))); [rewrite <- A; exact N2|].
    rewrite <- Qmult_assoc. apply Qmult_le_l; [lra|]. apply Qmult_le_l; [assumption | exact D1].
  - assert (L : n # d < 2 ^ (a - b)). { apply Qnot_le_lt. intros C. apply Qle_bool_iff in C. congruence. }
    replace (a - b - 1 + 1)%Z with (a - b)%Z by lia. split; [|exact L].
    apply (Qmult_le_r _ _ (inject_Z (Z.pos d)) Dp). rewrite M. apply (Qle_trans _ (2 ^ a)); [|exact N1].
    rewrite A, B. setoid_replace (2 * 2 ^ (a - b - 1) * 2 ^ b) with (2 ^ (a - b - 1) * (2 * 2 ^ b)) by ring.
    apply Qmult_le_l; [assumption|]. apply Qlt_le_weak. exact D2.
Qed.

(** ** The rounding error *)
Lemma abs_mult_pos x y : 0 < y -> Qabs (x * y) == Qabs x * y.
Proof. intros H. rewrite Qabs_Qmult, (Qabs_pos y) by lra. reflexivity. Qed.
Lemma grid_error x e : Qabs (inject_Z (nearest_even (x / 2 ^ e)) * 2 ^ e - x) <= (1 # 2) * 2 ^ e.
Proof.
  pose proof (two_pos e) as P.
  setoid_replace (inject_Z (nearest_even (x / 2 ^ e)) * 2 ^ e - x) with ((inject_Z (nearest_even (x / 2 ^ e)) - x / 2 ^ e) * 2 ^ e)
    by (field; lra).
  rewrite abs_mult_pos by exact P. apply Qmult_le_r; [exact P|]. apply near_half.
Qed.
Lemma abs_pos x : ~ x == 0 -> 0 < Qabs x.
Proof.
  intros X. apply Qabs_case; intros H.
  - destruct (Qle_lt_or_eq _ _ H) as [?|C]; [assumption | symmetry in C; contradiction].
  - destruct (Qle_lt_or_eq _ _ H) as [?|C]; [lra | contradiction].
Qed.
Lemma inject_abs n : Qabs (inject_Z n) == inject_Z (Z.abs n).
Proof. reflexivity. Qed.

Lemma near_ge q z : inject_Z z <= q -> (z <= nearest_even q)%Z.
Proof.
  intros H. assert (L : (z <= Qfloor q)%Z) by (rewrite <- (Qfloor_Z z); apply Qfloor_resp_le; exact H).
  unfold nearest_even. destruct (Qcompare _ _); [destruct (Z.even _)| |]; lia.
Qed.
Lemma near_le q z : q <= inject_Z z -> (nearest_even q <= z)%Z.
Proof.
  intros H. assert (L : (Qfloor q <= z)%Z) by (rewrite <- (Qfloor_Z z); apply Qfloor_resp_le; exact H).
  destruct (Z.eq_dec (Qfloor q) z) as [E|E].
  - assert (q == inject_Z z). { apply Qle_antisym; [exact H|]. rewrite <- E. apply Qfloor_le. } rewrite (near_int _ _ H0). lia.
  - unfold nearest_even. destruct (Qcompare _ _); [destruct (Z.even _)| |]; lia.
Qed.
Lemma near_best q z : Qabs (inject_Z (nearest_even q) - q) <= Qabs (inject_Z z - q).
Proof.
  pose proof (near_half q) as H. destruct (Z.eq_dec z (nearest_even q)) as [->|N]; [apply Qle_refl|].
  assert (D : 1 <= Qabs (inject_Z z - inject_Z (nearest_even q))).
  { setoid_replace (inject_Z z - inject_Z (nearest_even q)) with (inject_Z (z - nearest_even q)) by (unfold Z.sub; rewrite inject_Z_plus, inject_Z_opp; ring).
    rewrite inject_abs. change 1 with (inject_Z 1). rewrite <- Zle_Qle. lia. }
  assert (T : Qabs (inject_Z z - inject_Z (nearest_even q)) <= Qabs (inject_Z z - q) + Qabs (inject_Z (nearest_even q) - q)).
  { rewrite <- (Qabs_opp (inject_Z (nearest_even q) - q)).
    setoid_replace (inject_Z z - inject_Z (nearest_even q)) with ((inject_Z z - q) + - (inject_Z (nearest_even q) - q)) by ring. apply Qabs_triangle. }
  lra.
Qed.
Lemma grid_best x e z : Qabs (inject_Z (nearest_even (x / 2 ^ e)) * 2 ^ e - x) <= Qabs (inject_Z z * 2 ^ e - x).
Proof.
  pose proof (two_pos e) as P.
  setoid_replace (inject_Z (nearest_even (x / 2 ^ e)) * 2 ^ e - x) with ((inject_Z (nearest_even (x / 2 ^ e)) - x / 2 ^ e) * 2 ^ e) by (field; lra).
  setoid_replace (inject_Z z * 2 ^ e - x) with ((inject_Z z - x / 2 ^ e) * 2 ^ e) by (field; lra).
  rewrite !abs_mult_pos by exact P. apply Qmult_le_r; [exact P|]. apply near_best.
Qed.

(** ** A format *)
Section Format.
Variable f : format.
Hypothesis F : sensible f.
Local Notation p := (f_prec f).
Local Notation emin := (f_emin f).
Local Notation emax := (f_emax f).

Lemma rnd_error x y : round_to f x = Fin y -> Qabs (y - x) <= Qabs x * relative f + absolute f.
Proof.
  destruct F as (F1 & F2 & F3 & F4).
  unfold round_to. assert (Ap : 0 < absolute f) by apply two_pos. destruct (Qeq_bool x 0) eqn:E0.
  - intros H. injection H as <-. apply Qeq_bool_iff in E0. rewrite E0. change (Qabs (0 - 0)) with 0. change (Qabs 0) with 0. lra.
  - set (e := Z.max _ _). destruct (Qle_bool _ _); [discriminate|]. intros H. injection H as <-.
    pose proof (grid_error x e) as G. eapply Qle_trans; [exact G|]. clear G.
    assert (X : ~ x == 0) by (intros C; apply Qeq_bool_iff in C; congruence).
    pose proof (abs_pos x X) as P.
    destruct (binade_bounds _ P) as [B1 B2]. set (k := binade (Qabs x)) in *.
    assert (T : (1 # 2) * 2 ^ e == 2 ^ (e - 1)).
    { replace (e - 1)%Z with (e + -1)%Z by lia. rewrite two_plus. change (2 ^ (-1)) with (1 # 2). ring. }
    rewrite T. clear T.
    assert (R0 : 0 <= Qabs x * relative f) by (apply Qmult_le_0_compat; [lra | apply Qlt_le_weak, two_pos]).
    destruct (Z.max_spec (k - (p - 1)) emin) as [[M1 M2]|[M1 M2]]; fold e in M2; rewrite M2.
    + fold (absolute f). lra.
    + replace (k - (p - 1) - 1)%Z with (k + - p)%Z by lia. rewrite two_plus. fold (relative f).
      assert (2 ^ k * relative f <= Qabs x * relative f) by (apply Qmult_le_r; [apply two_pos | exact B1]). lra.
Qed.
Lemma rnd_finite x : Qabs x <= 2 ^ (emax - 2) -> exists y, round_to f x = Fin y.
Proof.
  destruct F as (F1 & F2 & F3 & F4).
  intros Hx. unfold round_to. destruct (Qeq_bool x 0) eqn:E0; [eauto|]. set (e := Z.max _ _). cbv zeta.
  destruct (Qle_bool _ _) eqn:E; [|eauto]. exfalso. apply Qle_bool_iff in E.
  pose proof (grid_error x e) as G.
  assert (X : ~ x == 0) by (intros C; apply Qeq_bool_iff in C; congruence).
  pose proof (abs_pos x X) as P.
  destruct (binade_bounds _ P) as [B1 B2]. set (k := binade (Qabs x)) in *.
  assert (K : (k <= emax - 2)%Z) by (apply (Qpower_le_compat_l_inv 2); [lra | lra]).
  assert (Ee : 2 ^ e <= 2 ^ (emax - 2)) by (apply Qpower_le_compat_l; [unfold e; lia | lra]).
  set (y := inject_Z (nearest_even (x / 2 ^ e)) * 2 ^ e) in *.
  assert (S : Qabs y <= Qabs (y - x) + Qabs x). { setoid_replace y with (y - x + x) at 1 by ring. apply Qabs_triangle. }
  assert (T : 2 ^ emax == 2 ^ (emax - 2) * 4). { rewrite <- (two_plus (emax - 2) 2). replace (emax - 2 + 2)%Z with emax by lia. reflexivity. }
  pose proof (two_pos (emax - 2)). lra.
Qed.
Lemma rnd_exact x : representable_in f x -> exists y, round_to f x = Fin y /\ y == x.
Proof.
  destruct F as (F1 & F2 & F3 & F4).
  intros (n & e0 & Hn & He & Hx). unfold round_to. destruct (Qeq_bool x 0) eqn:E0.
  { apply Qeq_bool_iff in E0. exists 0. split; [reflexivity | symmetry; exact E0]. }
  assert (X : ~ x == 0) by (intros C; apply Qeq_bool_iff in C; congruence).
  pose proof (abs_pos x X) as P. destruct (binade_bounds _ P) as [B1 B2]. set (k := binade (Qabs x)) in *. set (e := Z.max _ _). cbv zeta.
  assert (Ax : Qabs x == inject_Z (Z.abs n) * 2 ^ e0) by (rewrite Hx, abs_mult_pos, inject_abs by apply two_pos; reflexivity).
  assert (K : (k < e0 + p)%Z).
  { apply (Qpower_lt_compat_l_inv 2); [|lra]. eapply Qle_lt_trans; [exact B1|]. rewrite Ax, Z.add_comm, two_plus.
    apply Qmult_lt_r; [apply two_pos|]. rewrite two_int by lia. rewrite <- Zlt_Qlt. exact Hn. }
  assert (Le : (e <= e0)%Z) by (unfold e; lia).
  assert (E : x / 2 ^ e == inject_Z (n * 2 ^ (e0 - e))).
  { rewrite inject_Z_mult, <- two_int by lia. rewrite Hx. assert (S : 2 ^ e0 == 2 ^ (e0 - e) * 2 ^ e) by (rewrite <- two_plus; replace (e0 - e + e)%Z with e0 by lia; reflexivity).
    rewrite S. pose proof (two_pos e). field. lra. }
  rewrite (near_int _ _ E). assert (Y : inject_Z (n * 2 ^ (e0 - e)) * 2 ^ e == x) by (rewrite <- E; pose proof (two_pos e); field; lra).
  destruct (Qle_bool _ _) eqn:B; [|eauto]. exfalso. apply Qle_bool_iff in B. rewrite Y in B.
  assert (C : (emax < k + 1)%Z) by (apply (Qpower_lt_compat_l_inv 2); [eapply Qle_lt_trans; [exact B | exact B2] | lra]). lia.
Qed.
Lemma rnd_lands x y : round_to f x = Fin y -> representable_in f y.
Proof.
  destruct F as (F1 & F2 & F3 & F4).
  assert (Pp : (0 < 2 ^ p)%Z) by (apply Z.pow_pos_nonneg; lia). assert (P1 : (2 ^ p = 2 ^ (p - 1) * 2)%Z) by (replace p with (Z.succ (p - 1)) at 1 by lia; rewrite Z.pow_succ_r by lia; lia).
  unfold round_to. destruct (Qeq_bool x 0) eqn:E0.
  { intros H. injection H as <-. exists 0%Z, 0%Z. repeat split; lia. }
  assert (X : ~ x == 0) by (intros C; apply Qeq_bool_iff in C; congruence).
  pose proof (abs_pos x X) as P. destruct (binade_bounds _ P) as [B1 B2]. set (k := binade (Qabs x)) in *. set (e := Z.max _ _). cbv zeta.
  set (n := nearest_even (x / 2 ^ e)). destruct (Qle_bool _ _) eqn:B; [discriminate|]. intros H. injection H as <-.
  assert (L : Qabs (inject_Z n * 2 ^ e) < 2 ^ emax). { apply Qnot_le_lt. intros C. apply Qle_bool_iff in C. congruence. }
  rewrite abs_mult_pos, inject_abs in L by apply two_pos.
  assert (N : (Z.abs n <= 2 ^ p)%Z).
  { assert (Qabs (x / 2 ^ e) < 2 ^ p).
    { unfold Qdiv. pose proof (two_pos e) as Pe. assert (0 < / 2 ^ e) by (apply Qinv_lt_0_compat; exact Pe). rewrite abs_mult_pos by assumption.
      apply Qlt_shift_div_r; [exact Pe|]. rewrite <- two_plus. eapply Qlt_le_trans; [exact B2|]. apply Qpower_le_compat_l; [unfold e; lia | lra]. }
    pose proof (near_half (x / 2 ^ e)) as Hh. fold n in Hh.
    assert (T : Qabs (inject_Z n) <= Qabs (inject_Z n - x / 2 ^ e) + Qabs (x / 2 ^ e)).
    { setoid_replace (inject_Z n) with (inject_Z n - x / 2 ^ e + x / 2 ^ e) at 1 by ring. apply Qabs_triangle. }
    assert (Q : inject_Z (Z.abs n) < inject_Z (2 ^ p + 1)). { rewrite <- inject_abs, inject_Z_plus, <- two_int by lia. change (inject_Z 1) with 1. lra. }
    rewrite <- Zlt_Qlt in Q. lia. }
  assert (Em : (emin <= e)%Z) by (unfold e; lia).
  destruct (Z.eq_dec n 0) as [Z0|Z0].
  { exists 0%Z, 0%Z. rewrite Z0. split; [cbn; lia|]. split; [lia|]. change (inject_Z 0) with 0. ring. }
  assert (Eu : (e <= emax - p)%Z \/ (emax - p < e)%Z) by lia. destruct Eu as [Eu|Eu].
  - destruct (Z.eq_dec (Z.abs n) (2 ^ p)) as [G|G].
    + exists (Z.sgn n * 2 ^ (p - 1))%Z, (e + 1)%Z. split; [rewrite Z.abs_mul; destruct n; cbn [Z.sgn Z.abs]; lia|]. split.
      * rewrite G in L. rewrite <- two_int, <- two_plus in L by lia. apply Qpower_lt_compat_l_inv in L; [lia | lra].
      * rewrite two_plus. change (2 ^ 1) with 2.
        assert (Sn : (n = Z.sgn n * 2 ^ (p - 1) * 2)%Z) by (pose proof (Z.abs_sgn n); rewrite G in *; lia).
        assert (Sq : inject_Z n == inject_Z (Z.sgn n * 2 ^ (p - 1)) * 2).
        { assert (W : inject_Z (Z.sgn n * 2 ^ (p - 1)) * 2 == inject_Z (Z.sgn n * 2 ^ (p - 1) * 2)) by (rewrite (inject_Z_mult _ 2); reflexivity).
          rewrite W, <- Sn. reflexivity. }
        rewrite Sq. ring.
    + exists n, e. split; [lia|]. split; [lia | reflexivity].
  - exfalso. assert (Ke : e = (k - (p - 1))%Z) by (unfold e in *; lia).
    assert (Ln : (2 ^ (p - 1) <= Z.abs n)%Z).
    { assert (Qle : 2 ^ (p - 1) <= Qabs (x / 2 ^ e)).
      { unfold Qdiv. pose proof (two_pos e) as Pe. assert (0 < / 2 ^ e) by (apply Qinv_lt_0_compat; exact Pe). rewrite abs_mult_pos by assumption.
        apply Qle_shift_div_l; [exact Pe|]. rewrite <- two_plus. replace (p - 1 + e)%Z with k by lia. exact B1. }
      pose proof (near_half (x / 2 ^ e)) as Hh. fold n in Hh.
      assert (T : Qabs (x / 2 ^ e) <= Qabs (inject_Z n - x / 2 ^ e) + Qabs (inject_Z n)).
      { rewrite <- (Qabs_opp (inject_Z n - x / 2 ^ e)). setoid_replace (x / 2 ^ e) with (- (inject_Z n - x / 2 ^ e) + inject_Z n) at 1 by ring. apply Qabs_triangle. }
      assert (Q : inject_Z (2 ^ (p - 1) + -1) < inject_Z (Z.abs n)). { rewrite <- inject_abs. rewrite inject_Z_plus, <- two_int by lia. change (inject_Z (-1)) with (- (1)). lra. }
      rewrite <- Zlt_Qlt in Q. lia. }
    assert (C : 2 ^ (p - 1 + e) < 2 ^ emax).
    { rewrite two_plus. eapply Qle_lt_trans; [|exact L]. apply Qmult_le_r; [apply two_pos|]. rewrite two_int by lia. rewrite <- Zle_Qle. exact Ln. }
    apply Qpower_lt_compat_l_inv in C; [lia | lra].
Qed.
Lemma rnd_best x y r : round_to f x = Fin y -> representable_in f r -> Qabs (y - x) <= Qabs (r - x).
Proof.
  destruct F as (F1 & F2 & F3 & F4).
  unfold round_to. destruct (Qeq_bool x 0) eqn:E0.
  { intros H _. injection H as <-. apply Qeq_bool_iff in E0. rewrite E0. apply Qabs_nonneg. }
  assert (X : ~ x == 0) by (intros C; apply Qeq_bool_iff in C; congruence).
  pose proof (abs_pos x X) as P. destruct (binade_bounds _ P) as [B1 B2]. set (k := binade (Qabs x)) in *. set (e := Z.max _ _). cbv zeta.
  destruct (Qle_bool _ _); [discriminate|]. intros H (n & e0 & Hn & He & Hr). injection H as <-.
  destruct (Z.le_gt_cases e e0) as [L|L].
  - assert (R : r == inject_Z (n * 2 ^ (e0 - e)) * 2 ^ e).
    { rewrite inject_Z_mult, <- two_int by lia. rewrite Hr. assert (S : 2 ^ e0 == 2 ^ (e0 - e) * 2 ^ e) by (rewrite <- two_plus; replace (e0 - e + e)%Z with e0 by lia; reflexivity).
      rewrite S. ring. }
    rewrite R. apply grid_best.
  - assert (Ke : e = (k - (p - 1))%Z) by (unfold e in *; lia).
    assert (Ar : Qabs r <= 2 ^ k).
    { rewrite Hr, abs_mult_pos, inject_abs by apply two_pos. apply (Qle_trans _ (2 ^ p * 2 ^ e0)).
      - apply Qmult_le_r; [apply two_pos|]. rewrite two_int by lia. rewrite <- Zle_Qle. lia.
      - rewrite <- two_plus. apply Qpower_le_compat_l; [lia | lra]. }
    assert (W : Qabs x - 2 ^ k <= Qabs (r - x)).
    { assert (T : Qabs x <= Qabs (r - x) + Qabs r). { rewrite <- (Qabs_opp (r - x)). setoid_replace x with (- (r - x) + r) at 1 by ring. apply Qabs_triangle. } lra. }
    eapply Qle_trans; [|exact W].
    assert (K2 : 2 ^ k == inject_Z (2 ^ (p - 1)) * 2 ^ e) by (rewrite <- two_int, <- two_plus by lia; replace (p - 1 + e)%Z with k by lia; reflexivity).
    destruct (Qlt_le_dec 0 x) as [S|S].
    + eapply Qle_trans; [apply (grid_best x e (2 ^ (p - 1)))|]. rewrite <- K2. rewrite (Qabs_pos x) in * by lra. rewrite Qabs_neg by lra. lra.
    + eapply Qle_trans; [apply (grid_best x e (- 2 ^ (p - 1)))|]. rewrite inject_Z_opp.
      setoid_replace (- inject_Z (2 ^ (p - 1)) * 2 ^ e - x) with (- (2 ^ k) - x) by (rewrite K2; ring). rewrite (Qabs_neg x) in * by lra. rewrite Qabs_pos by lra. lra.
Qed.

(** ** Order *)
Lemma rnd_ge x y r : round_to f x = Fin y -> representable_in f r -> r <= x -> r <= y.
Proof.
  intros H R L. pose proof (rnd_best x y r H R) as B. rewrite (Qabs_neg (r - x)) in B by lra. apply Qabs_Qle_condition in B as [B _]. lra.
Qed.
Lemma rnd_le x y r : round_to f x = Fin y -> representable_in f r -> x <= r -> y <= r.
Proof.
  intros H R L. pose proof (rnd_best x y r H R) as B. rewrite (Qabs_pos (r - x)) in B by lra. apply Qabs_Qle_condition in B as [_ B]. lra.
Qed.
Lemma small_int n : (Z.abs n < 2 ^ p)%Z -> representable_in f (inject_Z n).
Proof.
  destruct F as (F1 & F2 & F3 & F4). intros H. exists n, 0%Z. split; [exact H|]. split; [lia|]. change (2 ^ 0) with 1. ring.
Qed.
Lemma power_representable k : (emin <= k < emax)%Z -> representable_in f (2 ^ k).
Proof.
  destruct F as (F1 & F2 & F3 & F4). intros H. destruct (Z.le_gt_cases k (emax - p)) as [L|L].
  - exists 1%Z, k. split; [assert (1 < 2 ^ p)%Z by (apply Z.pow_gt_1; lia); cbn; lia|]. split; [lia|]. change (inject_Z 1) with 1. ring.
  - exists (2 ^ (k - (emax - p)))%Z, (emax - p)%Z. split; [rewrite Z.abs_eq by (apply Z.pow_nonneg; lia); apply Z.pow_lt_mono_r; lia|]. split; [lia|].
    rewrite <- two_int by lia. rewrite <- two_plus. replace (k - (emax - p) + (emax - p))%Z with k by lia. reflexivity.
Qed.
Lemma binade_same x x' : 0 < x -> x == x' -> binade x = binade x'.
Proof.
  intros P E. assert (P' : 0 < x') by (rewrite <- E; exact P). destruct (binade_bounds _ P) as [A1 A2], (binade_bounds _ P') as [B1 B2].
  set (k := binade x) in *. set (k' := binade x') in *. rewrite <- E in B1, B2.
  assert (C : (k < k' + 1)%Z) by (apply (Qpower_lt_compat_l_inv 2); [eapply Qle_lt_trans; [exact A1 | exact B2] | lra]).
  assert (D : (k' < k + 1)%Z) by (apply (Qpower_lt_compat_l_inv 2); [eapply Qle_lt_trans; [exact B1 | exact A2] | lra]). lia.
Qed.
Lemma near_same q q' : q == q' -> nearest_even q = nearest_even q'.
Proof.
  intros E. unfold nearest_even. rewrite (Qfloor_comp _ _ E).
  assert (C : Qcompare (q - inject_Z (Qfloor q')) (1 # 2) = Qcompare (q' - inject_Z (Qfloor q')) (1 # 2)) by (rewrite E; reflexivity).
  rewrite C. reflexivity.
Qed.
Lemma rnd_same x x' y y' : x == x' -> round_to f x = Fin y -> round_to f x' = Fin y' -> y == y'.
Proof.
  intros E. unfold round_to. assert (Z : Qeq_bool x 0 = Qeq_bool x' 0).
  { destruct (Qeq_bool x 0) eqn:A, (Qeq_bool x' 0) eqn:B; try reflexivity; exfalso.
    - apply Qeq_bool_iff in A. assert (C : Qeq_bool x' 0 = true) by (apply Qeq_bool_iff; rewrite <- E; exact A). congruence.
    - apply Qeq_bool_iff in B. assert (C : Qeq_bool x 0 = true) by (apply Qeq_bool_iff; rewrite E; exact B). congruence. }
  rewrite <- Z. destruct (Qeq_bool x 0) eqn:E0; [intros A B; injection A as <-; injection B as <-; reflexivity|].
  assert (X : ~ x == 0) by (intros C; apply Qeq_bool_iff in C; congruence).
  assert (Ea : Qabs x == Qabs x') by (rewrite E; reflexivity). rewrite <- (binade_same _ _ (abs_pos x X) Ea).
  set (e := Z.max _ _). cbv zeta.
  assert (Ed : x / 2 ^ e == x' / 2 ^ e) by (rewrite E; reflexivity). rewrite <- (near_same _ _ Ed).
  destruct (Qle_bool _ _); [discriminate|]. intros A B. injection A as <-. injection B as <-. reflexivity.
Qed.
Lemma rnd_monotone x x' y y' : x <= x' -> round_to f x = Fin y -> round_to f x' = Fin y' -> y <= y'.
Proof.
  intros L H H'. pose proof (rnd_lands _ _ H) as R. pose proof (rnd_lands _ _ H') as R'.
  destruct (Qlt_le_dec x' y) as [A|A]; [|exact (rnd_ge x' y' y H' R A)].
  destruct (Qlt_le_dec y' x) as [B|B]; [|exact (rnd_le x y y' H R' B)].
  pose proof (rnd_best x y y' H R') as C. pose proof (rnd_best x' y' y H' R) as D.
  rewrite (Qabs_pos (y - x)), (Qabs_neg (y' - x)) in C by lra. rewrite (Qabs_neg (y' - x')), (Qabs_pos (y - x')) in D by lra.
  assert (E : x == x') by lra. rewrite (rnd_same x x' y y' E H H'). apply Qle_refl.
Qed.
End Format.
Lemma sensible64 : sensible b64.
Proof. unfold sensible, b64. cbn. lia. Qed.
Lemma sensible32 : sensible b32.
Proof. unfold sensible, b32. cbn. lia. Qed.
