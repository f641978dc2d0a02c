(** Proofs about square roots of floating point numbers. *)
From Coq Require Import QArith Qround Qabs Qpower Lqa Lia List.
From Verif Require Import Base Tracker Width Helpers Float SpecDouble FloatBase FloatStats SpecSample FloatStatsProof FloatStatsMean FloatStatsGrid.
Open Scope Q_scope.

Section Format.
Variable f : format.
Hypothesis F : sensible f.
Local Notation p := (f_prec f).
Local Notation emin := (f_emin f).
Local Notation emax := (f_emax f).

Lemma grid_multiple r h : representable_in f r -> 2 ^ h <= r -> exists n, r == inject_Z n * 2 ^ (h - p + 1).
Proof.
  destruct F as (F1 & F2 & F3 & F4). intros (n & e & Hn & He & E) L.
  assert (G : (h < p + e)%Z).
  { apply (Qpower_lt_compat_l_inv 2); [|lra]. eapply Qle_lt_trans; [exact L|]. rewrite E, two_plus. apply Qmult_lt_r; [apply two_pos|].
    rewrite two_int by lia. rewrite <- Zlt_Qlt. lia. }
  exists (n * 2 ^ (e - (h - p + 1)))%Z. rewrite inject_Z_mult, <- two_int, <- Qmult_assoc, <- two_plus by lia.
  replace (e - (h - p + 1) + (h - p + 1))%Z with e by lia. exact E.
Qed.
Lemma sq_mono a b : 0 <= a -> a <= b -> a * a <= b * b.
Proof. intros A B. apply (Qle_trans _ (b * a)); [apply Qmult_le_compat_r; lra|]. rewrite (Qmult_comm b a). apply Qmult_le_compat_r; lra. Qed.

Lemma root_nearest x : 0 < x -> (2 * (emin + p - 1) <= binade x < 2 * (emax - 3))%Z ->
  exists y, root f x = Fin y /\ 0 < y /\ nearest_root f x y.
Proof.
  intros X Hk. destruct F as (F1 & F2 & F3 & F4). destruct (binade_bounds x X) as [B1 B2].
  unfold root. set (k := binade x) in *. set (h := (k / 2)%Z). assert (Kh : (2 * h <= k <= 2 * h + 1)%Z) by (unfold h; pose proof (Z.div_mod k 2); pose proof (Z.mod_pos_bound k 2); lia).
  set (e := (h - p)%Z). cbv zeta. set (q := x / 2 ^ (2 * e)). set (s := Z.sqrt (Qfloor q)).
  assert (P2 : 2 ^ (2 * e) == 2 ^ e * 2 ^ e) by (replace (2 * e)%Z with (e + e)%Z by lia; apply two_plus).
  pose proof (two_pos e) as Pe.
  assert (Xq : x == q * (2 ^ e * 2 ^ e)) by (unfold q; rewrite P2; field; lra).
  assert (Q1 : inject_Z (2 ^ p * 2 ^ p) <= q).
  { unfold q. apply Qle_shift_div_l; [apply two_pos|]. rewrite inject_Z_mult, <- two_int by lia. rewrite <- !two_plus.
    eapply Qle_trans; [|exact B1]. apply Qpower_le_compat_l; [unfold e; lia | lra]. }
  assert (Q2 : q < inject_Z (2 ^ (p + 1) * 2 ^ (p + 1))).
  { unfold q. apply Qlt_shift_div_r; [apply two_pos|]. rewrite inject_Z_mult, <- two_int by lia. rewrite <- !two_plus.
    eapply Qlt_le_trans; [exact B2|]. apply Qpower_le_compat_l; [unfold e; lia | lra]. }
  pose proof (Qfloor_le q) as L1. pose proof (Qlt_floor q) as L2.
  assert (Pp : (0 < 2 ^ p)%Z) by (apply Z.pow_pos_nonneg; lia).
  assert (Pp2 : (2 ^ (p + 1) = 2 * 2 ^ p)%Z) by (rewrite Z.pow_add_r by lia; lia).
  assert (N1 : (2 ^ p * 2 ^ p <= Qfloor q)%Z) by (rewrite <- (Qfloor_Z (2 ^ p * 2 ^ p)); apply Qfloor_resp_le; exact Q1).
  assert (N2 : (Qfloor q < 2 ^ (p + 1) * 2 ^ (p + 1))%Z) by (rewrite Zlt_Qlt; eapply Qle_lt_trans; [exact L1 | exact Q2]).
  destruct (Z.sqrt_spec (Qfloor q) ltac:(nia)) as [S1 S2]. fold s in S1, S2.
  assert (Sp : (2 ^ p <= s < 2 ^ (p + 1))%Z) by nia.
  assert (R1 : inject_Z (s * s) <= q) by (eapply Qle_trans; [|exact L1]; rewrite <- Zle_Qle; exact S1).
  assert (R2 : q < inject_Z ((s + 1) * (s + 1))) by (eapply Qlt_le_trans; [exact L2|]; rewrite <- Zle_Qle; lia).
  set (c := if Qeq_bool (inject_Z (s * s)) q then inject_Z s else inject_Z s + (1 # 2)).
  assert (C1 : inject_Z s <= c) by (unfold c; destruct (Qeq_bool _ _); lra).
  assert (C2 : c < inject_Z s + 1) by (unfold c; destruct (Qeq_bool _ _); lra).
  assert (Up : forall w, c <= inject_Z w -> q <= inject_Z (w * w)).
  { intros w. unfold c. destruct (Qeq_bool _ _) eqn:E; intros Hw.
    - apply Qeq_bool_iff in E. rewrite <- E. rewrite <- Zle_Qle in *. nia.
    - assert ((s + 1 <= w)%Z).
      { assert (s < w)%Z; [|lia]. rewrite Zlt_Qlt. lra. }
      apply Qlt_le_weak. eapply Qlt_le_trans; [exact R2|]. rewrite <- Zle_Qle. nia. }
  assert (Dn : forall w, (0 <= w)%Z -> inject_Z w <= c -> inject_Z (w * w) <= q).
  { intros w W0 Hw. assert ((w <= s)%Z).
    { assert (w < s + 1)%Z; [|lia]. rewrite Zlt_Qlt, inject_succ. lra. }
    eapply Qle_trans; [|exact R1]. rewrite <- Zle_Qle. nia. }
  assert (T1 : 2 ^ h <= c * 2 ^ e).
  { apply (Qle_trans _ (2 ^ p * 2 ^ e)); [rewrite <- two_plus; apply Qpower_le_compat_l; [unfold e; lia | lra]|]. apply Qmult_le_r; [exact Pe|].
    rewrite two_int by lia. eapply Qle_trans; [|exact C1]. rewrite <- Zle_Qle. lia. }
  assert (T2 : c * 2 ^ e <= 2 ^ (h + 1)).
  { apply (Qle_trans _ (2 ^ (p + 1) * 2 ^ e)); [|rewrite <- two_plus; apply Qpower_le_compat_l; [unfold e; lia | lra]]. apply Qmult_le_r; [exact Pe|].
    rewrite two_int by lia. apply (Qle_trans _ (inject_Z (s + 1))); [rewrite inject_succ; lra|]. rewrite <- Zle_Qle. lia. }
  pose proof (two_pos h) as Ph.
  destruct (rnd_finite f F (c * 2 ^ e)) as (y & Hy).
  { rewrite Qabs_pos by lra. eapply Qle_trans; [exact T2|]. apply Qpower_le_compat_l; [lia | lra]. }
  assert (Rh : representable_in f (2 ^ h)) by (apply (power_representable f F); lia).
  assert (Yh : 2 ^ h <= y) by (apply (rnd_ge f F _ _ _ Hy Rh T1)).
  exists y. split; [exact Hy|]. split; [lra|]. split; [lra|]. split; [exact (rnd_lands f F _ _ Hy)|].
  assert (Grid : forall r, representable_in f r -> 2 ^ h <= r ->
    (y < r -> x <= ((y + r) / 2) * ((y + r) / 2)) /\ (r < y -> ((y + r) / 2) * ((y + r) / 2) <= x)).
  { intros r Rr Lr. destruct (grid_multiple y h (rnd_lands f F _ _ Hy) Yh) as (a & Ea). destruct (grid_multiple r h Rr Lr) as (b & Eb).
    assert (He1 : 2 ^ (h - p + 1) == 2 ^ e * 2) by (fold e; apply two_plus).
    assert (M : (y + r) / 2 == inject_Z (a + b) * 2 ^ e) by (rewrite inject_Z_plus, Ea, Eb, He1; field).
    pose proof (rnd_best f F _ _ r Hy Rr) as B.
    assert (W0 : (0 <= a + b)%Z).
    { assert (P : 0 <= inject_Z (a + b)). { apply (Qmult_le_r _ _ (2 ^ e) Pe). rewrite <- M. assert (Half : (y + r) / 2 == (y + r) * (1 # 2)) by (field). rewrite Half. lra. }
      change 0 with (inject_Z 0) in P. rewrite <- Zle_Qle in P. exact P. }
    assert (Sq : (y + r) / 2 * ((y + r) / 2) == inject_Z ((a + b) * (a + b)) * (2 ^ e * 2 ^ e)) by (rewrite M, (inject_Z_mult (a + b)); ring).
    assert (Half : (y + r) / 2 == (y + r) * (1 # 2)) by field.
    assert (Pe2 : 0 < 2 ^ e * 2 ^ e) by (apply Qmult_lt_0_compat; exact Pe).
    rewrite Sq, Xq. split; intros O; (apply Qmult_le_r; [exact Pe2|]).
    - apply Up. apply (Qmult_le_r _ _ (2 ^ e) Pe). rewrite <- M, Half.
      destruct (Qlt_le_dec ((y + r) * (1 # 2)) (c * 2 ^ e)) as [G|G]; [exfalso | exact G].
      destruct (Qlt_le_dec (c * 2 ^ e) r) as [V|V].
      + rewrite (Qabs_neg (y - c * 2 ^ e)), (Qabs_pos (r - c * 2 ^ e)) in B by lra. lra.
      + rewrite (Qabs_neg (y - c * 2 ^ e)), (Qabs_neg (r - c * 2 ^ e)) in B by lra. lra.
    - apply Dn; [exact W0|]. apply (Qmult_le_r _ _ (2 ^ e) Pe). rewrite <- M, Half.
      destruct (Qlt_le_dec (c * 2 ^ e) ((y + r) * (1 # 2))) as [G|G]; [exfalso | exact G].
      destruct (Qlt_le_dec r (c * 2 ^ e)) as [V|V].
      + rewrite (Qabs_pos (y - c * 2 ^ e)), (Qabs_neg (r - c * 2 ^ e)) in B by lra. lra.
      + rewrite (Qabs_pos (y - c * 2 ^ e)), (Qabs_pos (r - c * 2 ^ e)) in B by lra. lra. }
  intros r Rr R0. destruct (Qlt_le_dec r (2 ^ h)) as [L|L]; [|exact (Grid r Rr L)]. split; intros O; [lra|].
  assert (Half : (y + r) / 2 == (y + r) * (1 # 2)) by field. rewrite Half.
  assert (Xh : 2 ^ h * 2 ^ h <= x) by (rewrite <- two_plus; eapply Qle_trans; [|exact B1]; apply Qpower_le_compat_l; [lia | lra]).
  destruct (Qlt_le_dec (2 ^ h) y) as [V|V].
  - destruct (Grid (2 ^ h) Rh (Qle_refl _)) as [_ G]. specialize (G V). assert (Half2 : (y + 2 ^ h) / 2 == (y + 2 ^ h) * (1 # 2)) by field. rewrite Half2 in G.
    eapply Qle_trans; [|exact G]. apply sq_mono; lra.
  - eapply Qle_trans; [|exact Xh]. apply sq_mono; lra.
Qed.
End Format.

Lemma binade_range x : 0 < x -> representable_in b64 x -> (-1074 <= binade x < 1024)%Z.
Proof.
  intros X (n & e & Hn & He & E). destruct (binade_bounds x X) as [B1 B2]. cbn [f_prec f_emin f_emax b64] in *.
  pose proof (two_pos e) as Pe. assert (N : (1 <= n)%Z).
  { assert (0 < n)%Z; [|lia]. rewrite Zlt_Qlt. change (inject_Z 0) with 0. apply (Qmult_lt_r _ _ (2 ^ e) Pe). rewrite <- E. lra. }
  split.
  - assert ((-1074 < binade x + 1)%Z); [|lia]. apply (Qpower_lt_compat_l_inv 2); [|lra]. eapply Qle_lt_trans; [|exact B2].
    apply (Qle_trans _ (2 ^ e)); [apply Qpower_le_compat_l; [lia | lra]|]. rewrite E. rewrite <- (Qmult_1_l (2 ^ e)) at 1. apply Qmult_le_r; [exact Pe|].
    change 1 with (inject_Z 1). rewrite <- Zle_Qle. exact N.
  - apply (Qpower_lt_compat_l_inv 2); [|lra]. eapply Qle_lt_trans; [exact B1|]. rewrite E. apply (Qlt_le_trans _ (2 ^ 53 * 2 ^ e)).
    + apply Qmult_lt_r; [exact Pe|]. rewrite two_int by lia. rewrite <- Zlt_Qlt. lia.
    + rewrite <- two_plus. apply Qpower_le_compat_l; [lia | lra].
Qed.
Lemma div_lands a b x : fdiv b64 a b = Fin x -> representable_in b64 x.
Proof.
  destruct a as [|s|y], b as [|t|z]; cbn [fdiv]; try discriminate.
  - intros H. injection H as <-. exact (zero_representable b64 sensible64).
  - destruct (Qeq_bool z 0); [destruct (Qeq_bool y 0); discriminate|]. exact (rnd_lands b64 sensible64 _ _).
Qed.
Lemma std_dev_spec l :
  match variance l with
  | NaN => std_dev l = NaN
  | Inf _ => std_dev l = Inf false
  | Fin v => exists y, std_dev l = Fin y /\ nearest_root b64 v y /\ (y == 0 <-> v == 0)
  end.
Proof.
  pose proof (variance_sign l) as S. unfold std_dev. destruct (variance l) as [|s|v] eqn:V; cbn [at_least fsqrt] in *; [reflexivity | subst; reflexivity|].
  destruct (Qeq_bool v 0) eqn:E.
  - apply Qeq_bool_iff in E. exists 0. split; [reflexivity|]. split; [|split; [intros _; exact E | reflexivity]].
    split; [apply Qle_refl|]. split; [exact (zero_representable b64 sensible64)|]. intros r Rr R0. split; intros O; [|lra].
    rewrite E. assert (Half : (0 + r) / 2 == r * (1 # 2)) by field. rewrite Half. apply Qmult_le_0_compat; lra.
  - assert (N : ~ v == 0) by (intros C; apply Qeq_bool_iff in C; congruence). rewrite not_negative by exact S.
    assert (P : 0 < v) by (destruct (Qle_lt_or_eq _ _ S) as [H|H]; [exact H | symmetry in H; contradiction]).
    pose proof (binade_range v P (div_lands _ _ _ V)) as B.
    destruct (root_nearest b64 sensible64 v P) as (y & Hy & Py & Ny); [cbn [f_prec f_emin f_emax b64]; lia|].
    exists y. split; [exact Hy|]. split; [exact Ny|]. split; intros H; [lra | contradiction].
Qed.

Lemma cube_mono a b : 0 <= a -> a <= b -> a * a * a <= b * b * b.
Proof.
  intros A B. pose proof (sq_mono a b A B) as S. apply (Qle_trans _ (b * b * a)); [apply Qmult_le_compat_r; lra|].
  rewrite (Qmult_comm (b * b) a), (Qmult_comm (b * b) b). apply Qmult_le_compat_r; [exact B|]. pose proof (sq_mono 0 b) as Z. lra.
Qed.
Lemma power15_spec a :
  match a with
  | NaN | Inf true => power15 b64 a = NaN
  | Inf false => power15 b64 a = Inf false
  | Fin x => (x < 0 -> power15 b64 a = NaN) /\ (x == 0 -> power15 b64 a = Fin 0) /\
      (2 ^ (-681) <= x -> x <= 2 ^ 680 -> exists y, power15 b64 a = Fin y /\ 0 < y /\ nearest_root b64 (x * x * x) y)
  end.
Proof.
  destruct a as [|[]|x]; cbn [power15]; try reflexivity. split; [|split].
  - intros L. destruct (Qeq_bool x 0) eqn:E; [apply Qeq_bool_iff in E; lra|]. unfold negative. destruct (Qle_bool 0 x) eqn:N; [apply Qle_bool_iff in N; lra|]. reflexivity.
  - intros E. apply Qeq_bool_iff in E. rewrite E. reflexivity.
  - intros L U. assert (P : 0 < x) by (eapply Qlt_le_trans; [apply two_pos|exact L]).
    destruct (Qeq_bool x 0) eqn:E; [apply Qeq_bool_iff in E; lra|]. rewrite not_negative by lra.
    assert (P3 : 0 < x * x * x). { assert (0 < x * x) by (rewrite <- (Qmult_0_l x); apply Qmult_lt_r; assumption). rewrite <- (Qmult_0_l x). apply Qmult_lt_r; assumption. }
    destruct (binade_bounds (x * x * x) P3) as [B1 B2].
    assert (C1 : 2 ^ (-2043) <= x * x * x).
    { eapply Qle_trans; [|apply cube_mono; [|exact L]; apply Qlt_le_weak, two_pos]. rewrite <- !two_plus. apply Qle_refl. }
    assert (C2 : x * x * x <= 2 ^ 2040).
    { eapply Qle_trans; [apply cube_mono; [lra|exact U]|]. rewrite <- !two_plus. apply Qle_refl. }
    destruct (root_nearest b64 sensible64 (x * x * x) P3) as (y & Hy & Py & Ny); [|exists y; auto].
    cbn [f_prec f_emin f_emax b64]. split.
    + assert (-2043 < binade (x * x * x) + 1)%Z; [|lia]. apply (Qpower_lt_compat_l_inv 2); [|lra]. lra.
    + assert (binade (x * x * x) < 2041)%Z; [|lia]. apply (Qpower_lt_compat_l_inv 2); [|lra]. eapply Qle_lt_trans; [exact B1|]. eapply Qle_lt_trans; [exact C2|].
      apply Qpower_lt_compat_l; [lia|lra].
Qed.
