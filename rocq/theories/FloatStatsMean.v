(** Proofs about the mean and the variance in double precision. *)
From Coq Require Import QArith Qround Qabs Qpower Lqa Lia List.
From Verif Require Import Base Tracker Width Helpers Float SpecDouble FloatBase FloatStats SpecSample FloatStatsProof.
Import ListNotations.
Open Scope Q_scope.

Lemma inject_le a b : (a <= b)%Z -> inject_Z a <= inject_Z b.
Proof. intros H. rewrite <- Zle_Qle. exact H. Qed.
Lemma inject_succ k : inject_Z (k + 1) == inject_Z k + 1.
Proof. rewrite inject_Z_plus. reflexivity. Qed.

(** ** Sums *)
Section Bound.
Variable m : Z.
Hypothesis Hm : (-1022 <= m <= 969)%Z.
Local Notation u := (2 ^ (m - 53)).
Lemma unit_split : 2 ^ m * 2 ^ (-53) == u.
Proof. rewrite <- two_plus. replace (m + -53)%Z with (m - 53)%Z by lia. reflexivity. Qed.
Lemma unit_tiny : absolute b64 <= u.
Proof. unfold absolute. apply Qpower_le_compat_l; [cbn [f_emin b64]; lia | lra]. Qed.
Lemma sum_from l : forall a k, (0 <= k)%Z -> (k + Z.of_nat (length l) <= 2 ^ 53)%Z -> Qabs a <= inject_Z k * 2 ^ m -> within (2 ^ m) l ->
  exists s, fold_left (fadd b64) (map Fin l) (Fin a) = Fin s /\ Qabs s <= inject_Z (k + Z.of_nat (length l)) * 2 ^ m /\
    Qabs (s - (a + total l)) <=
      (inject_Z (k + Z.of_nat (length l)) * (inject_Z (k + Z.of_nat (length l)) + 3) - inject_Z k * (inject_Z k + 3)) * (1 # 2) * u.
Proof.
  induction l as [|x l IH]; intros a k Hk Hn Ha W.
  - exists a. cbn [map fold_left length total fold_right]. change (Z.of_nat 0) with 0%Z. rewrite Z.add_0_r. split; [reflexivity|]. split; [exact Ha|].
    assert (E : a - (a + 0) == 0) by ring. rewrite E. change (Qabs 0) with 0. set (K := inject_Z k). set (v := u). assert (E2 : (K * (K + 3) - K * (K + 3)) * (1 # 2) * v == 0) by ring. rewrite E2. apply Qle_refl.
  - cbn [length] in *. rewrite Nat2Z.inj_succ in *. cbn [map fold_left].
    pose proof (two_pos m) as Pm. pose proof (W x (or_introl eq_refl)) as Hx.
    assert (Ax : Qabs (a + x) <= inject_Z (k + 1) * 2 ^ m).
    { eapply Qle_trans; [apply Qabs_triangle|]. rewrite inject_succ. lra. }
    destruct (rnd_within b64 sensible64 (a + x) (k + 1) m) as (y & Hy & By); [cbn [f_prec b64]; lia | cbn [f_prec f_emin f_emax b64]; lia | exact Ax|].
    cbn [fadd]. rewrite Hy.
    destruct (IH y (k + 1)%Z) as (s & Hs & Bs & Es); [lia | lia | exact By | intros z Hz; apply W; right; exact Hz|].
    replace (k + 1 + Z.of_nat (length l))%Z with (k + Z.succ (Z.of_nat (length l)))%Z in * by lia.
    exists s. split; [exact Hs|]. split; [exact Bs|]. cbn [total fold_right]. fold (total l).
    pose proof (rnd_error b64 sensible64 _ _ Hy) as R. pose proof unit_tiny as T. pose proof unit_split as S. unfold relative in R. cbn [f_prec b64] in R.
    change (- (53))%Z with (-53)%Z in R.
    assert (D : Qabs (y - (a + x)) <= (inject_Z k + 2) * u).
    { eapply Qle_trans; [exact R|]. assert (Qabs (a + x) * 2 ^ (-53) <= (inject_Z k + 1) * 2 ^ m * 2 ^ (-53)).
      { apply Qmult_le_compat_r; [rewrite <- inject_succ; exact Ax | apply Qlt_le_weak, two_pos]. }
      assert (E : (inject_Z k + 1) * 2 ^ m * 2 ^ (-53) == (inject_Z k + 1) * u) by (rewrite <- S; ring). lra. }
    set (N := inject_Z (k + Z.succ (Z.of_nat (length l)))) in *. rewrite inject_succ in Es.
    assert (Tr : Qabs (s - (a + (x + total l))) <= Qabs (s - (y + total l)) + Qabs (y - (a + x))).
    { setoid_replace (s - (a + (x + total l))) with ((s - (y + total l)) + (y - (a + x))) by ring. apply Qabs_triangle. }
    eapply Qle_trans; [exact Tr|]. set (K := inject_Z k) in *. set (v := u) in *.
    assert (Fe : (N * (N + 3) - K * (K + 3)) * (1 # 2) * v == (N * (N + 3) - (K + 1) * (K + 1 + 3)) * (1 # 2) * v + (K + 2) * v) by ring.
    lra.
Qed.
Lemma int_exact64 n : (0 <= n <= 2 ^ 53)%Z -> exists x, of_int b64 n = Fin x /\ x == inject_Z n.
Proof.
  intros H. apply (rnd_exact b64 sensible64). apply (comp_representable b64 (inject_Z n * 2 ^ 0)); [change (2 ^ 0) with 1; ring|].
  apply (grid_representable b64 sensible64); cbn [f_prec f_emin f_emax b64]; [rewrite Z.abs_eq|]; lia.
Qed.
Lemma div_int s n : (0 < n <= 2 ^ 53)%Z -> fdiv b64 (Fin s) (of_int b64 n) = round_to b64 (s / inject_Z n).
Proof.
  intros H. destruct (int_exact64 n) as (x & -> & E); [lia|]. cbn [fdiv].
  assert (P : 0 < inject_Z n) by (change 0 with (inject_Z 0); rewrite <- Zlt_Qlt; lia).
  destruct (Qeq_bool x 0) eqn:Z0; [apply Qeq_bool_iff in Z0; rewrite E in Z0; lra|]. apply rnd_eq. rewrite E. reflexivity.
Qed.
Lemma mean_bound l : (0 < Z.of_nat (length l) <= 2 ^ 53)%Z -> within (2 ^ m) l ->
  exists y, mean (map Fin l) = Fin y /\ Qabs y <= 2 ^ m /\
    Qabs (y - average l) <= (inject_Z (Z.of_nat (length l)) + 7) * 2 ^ (m - 54).
Proof.
  intros Hn W. destruct (sum_from l 0 0) as (s & Hs & Bs & Es); [lia | lia | cbn; pose proof (two_pos m); change (Qabs 0) with 0; change (inject_Z 0) with 0; lra | exact W|].
  rewrite Z.add_0_l in Bs, Es. set (n := Z.of_nat (length l)) in *. unfold mean, fsum, length64. rewrite Hs, map_length. fold n. rewrite div_int by lia.
  assert (P : 1 <= inject_Z n) by (change 1 with (inject_Z 1); rewrite <- Zle_Qle; lia).
  assert (Bq : Qabs (s / inject_Z n) <= inject_Z 1 * 2 ^ m).
  { unfold Qdiv. rewrite abs_mult_pos by (apply Qinv_lt_0_compat; lra). apply Qle_shift_div_r; [lra|]. change (inject_Z 1) with 1. lra. }
  destruct (rnd_within b64 sensible64 _ 1 m ltac:(cbn [f_prec b64]; lia) ltac:(cbn [f_prec f_emin f_emax b64]; lia) Bq) as (y & Hy & By).
  exists y. split; [exact Hy|]. change (inject_Z 1) with 1 in *. split; [lra|].
  pose proof (rnd_error b64 sensible64 _ _ Hy) as R. pose proof unit_tiny as T. pose proof unit_split as S. unfold relative in R. cbn [f_prec b64] in R.
  change (- (53))%Z with (-53)%Z in R. set (N := inject_Z n) in *.
  assert (D : Qabs (y - s / N) <= 2 * u).
  { eapply Qle_trans; [exact R|]. assert (Qabs (s / N) * 2 ^ (-53) <= 2 ^ m * 2 ^ (-53)).
    { apply Qmult_le_compat_r; [lra | apply Qlt_le_weak, two_pos]. } lra. }
  change (inject_Z 0) with 0 in Es.
  assert (Q : Qabs (s / N - average l) <= (N + 3) * (1 # 2) * u).
  { unfold average. fold n. fold N. setoid_replace (s / N - total l / N) with ((s - (0 + total l)) / N) by (field; lra).
    unfold Qdiv. rewrite abs_mult_pos by (apply Qinv_lt_0_compat; lra). apply Qle_shift_div_r; [lra|].
    eapply Qle_trans; [exact Es|]. set (v := u). assert (Ee : (N * (N + 3) - 0 * (0 + 3)) * (1 # 2) * v == (N + 3) * (1 # 2) * v * N) by ring. lra. }
  assert (Tr : Qabs (y - average l) <= Qabs (y - s / N) + Qabs (s / N - average l)).
  { setoid_replace (y - average l) with ((y - s / N) + (s / N - average l)) by ring. apply Qabs_triangle. }
  assert (H54 : 2 ^ (m - 54) == (1 # 2) * u). { replace (m - 54)%Z with (-1 + (m - 53))%Z by lia. rewrite two_plus. reflexivity. }
  rewrite H54. set (v := u) in *. assert (Fe : (N + 7) * ((1 # 2) * v) == 2 * v + (N + 3) * (1 # 2) * v) by ring. lra.
Qed.
End Bound.

(** ** The exact mean *)
Lemma total_ext g h (l : list Q) e : (forall x, In x l -> Qabs (g x - h x) <= e) -> Qabs (total (map g l) - total (map h l)) <= inject_Z (Z.of_nat (length l)) * e.
Proof.
  induction l as [|x l IH]; intros H; [cbn [map length total fold_right]; change (Qabs (0 - 0)) with 0; change (inject_Z (Z.of_nat 0)) with 0; lra|].
  cbn [map length total fold_right]. fold (total (map g l)). fold (total (map h l)). rewrite Nat2Z.inj_succ, <- Z.add_1_r, inject_succ.
  specialize (IH (fun y Hy => H y (or_intror Hy))). specialize (H x (or_introl eq_refl)).
  assert (T : Qabs (g x + total (map g l) - (h x + total (map h l))) <= Qabs (g x - h x) + Qabs (total (map g l) - total (map h l))).
  { setoid_replace (g x + total (map g l) - (h x + total (map h l))) with ((g x - h x) + (total (map g l) - total (map h l))) by ring. apply Qabs_triangle. }
  lra.
Qed.
Lemma average_ext g h (l : list Q) e : l <> [] -> (forall x, In x l -> Qabs (g x - h x) <= e) -> Qabs (average (map g l) - average (map h l)) <= e.
Proof.
  intros Hl H. unfold average. rewrite !map_length. pose proof (total_ext g h l e H) as T. set (N := inject_Z (Z.of_nat (length l))) in *.
  assert (P : 0 < N). { unfold N. change 0 with (inject_Z 0). rewrite <- Zlt_Qlt. destruct l; [congruence | cbn [length]; lia]. }
  setoid_replace (total (map g l) / N - total (map h l) / N) with ((total (map g l) - total (map h l)) / N) by (field; lra).
  unfold Qdiv. rewrite abs_mult_pos by (apply Qinv_lt_0_compat; exact P). apply Qle_shift_div_r; [exact P|]. lra.
Qed.
Lemma total_within b l : within b l -> Qabs (total l) <= inject_Z (Z.of_nat (length l)) * b.
Proof.
  induction l as [|x l IH]; intros H; [cbn [length total fold_right]; change (Qabs 0) with 0; change (inject_Z (Z.of_nat 0)) with 0; lra|]. cbn [total fold_right length]. fold (total l). rewrite Nat2Z.inj_succ, <- Z.add_1_r, inject_succ.
  specialize (IH (fun y Hy => H y (or_intror Hy))). specialize (H x (or_introl eq_refl)). pose proof (Qabs_triangle x (total l)). lra.
Qed.
Lemma average_within b l : l <> [] -> within b l -> Qabs (average l) <= b.
Proof.
  intros Hl H. unfold average. pose proof (total_within b l H) as T. set (N := inject_Z (Z.of_nat (length l))) in *.
  assert (P : 0 < N). { unfold N. change 0 with (inject_Z 0). rewrite <- Zlt_Qlt. destruct l; [congruence | cbn [length]; lia]. }
  unfold Qdiv. rewrite abs_mult_pos by (apply Qinv_lt_0_compat; exact P). apply Qle_shift_div_r; [exact P|]. lra.
Qed.

(** ** The variance *)
Definition value (a : float) : Q := match a with Fin x => x | _ => 0 end.
Lemma variance_mean l sq : map square (deviations (map Fin l)) = map Fin sq -> length sq = length l ->
  variance (map Fin l) = mean (map Fin sq).
Proof. intros H L. unfold variance, mean, length64. rewrite H, !map_length, L. reflexivity. Qed.
Lemma sq_le a b : Qabs a <= b -> a * a <= b * b.
Proof. intros H. apply Qabs_Qle_condition in H as [H1 H2]. nra. Qed.

Lemma variance_bound m l : (-500 <= m <= 480)%Z -> (0 < Z.of_nat (length l) <= 2 ^ 53)%Z -> within (2 ^ m) l ->
  exists v, variance (map Fin l) = Fin v /\ 0 <= v /\ v <= 2 ^ (2 * m + 2) /\
    Qabs (v - spread l) <= (inject_Z (Z.of_nat (length l)) + 16) * 2 ^ (2 * m - 51).
Proof.
  intros Hm Hn W. destruct (mean_bound m ltac:(lia) l Hn W) as (y & Hy & By & Ey).
  assert (Hl : l <> []) by (destruct l; [cbn in Hn; lia | congruence]).
  pose proof (two_pos m) as Pm.
  set (h := 2 ^ m) in *. set (n := inject_Z (Z.of_nat (length l))) in *.
  assert (U54 : 2 ^ (m - 54) == h * (1 # 18014398509481984)) by (unfold h; replace (m - 54)%Z with (m + -54)%Z by lia; rewrite two_plus; reflexivity).
  assert (H1 : 2 ^ (m + 1) == h * 2) by (unfold h; rewrite two_plus; reflexivity).
  assert (H2 : 2 ^ (2 * m + 2) == h * h * 4) by (unfold h; replace (2 * m + 2)%Z with (m + m + 2)%Z by lia; rewrite !two_plus; reflexivity).
  assert (H51 : 2 ^ (2 * m - 51) == h * h * (1 # 2251799813685248)) by (unfold h; replace (2 * m - 51)%Z with (m + m + -51)%Z by lia; rewrite !two_plus; reflexivity).
  assert (H54 : 2 ^ (2 * m + 2 - 54) == h * h * (1 # 4503599627370496)) by (unfold h; replace (2 * m + 2 - 54)%Z with (m + m + -52)%Z by lia; rewrite !two_plus; reflexivity).
  assert (T1 : absolute b64 <= h * (1 # 18014398509481984)).
  { rewrite <- U54. unfold absolute. apply Qpower_le_compat_l; [cbn [f_emin b64]; lia | lra]. }
  assert (T2 : absolute b64 <= h * h * (1 # 18014398509481984)).
  { assert (E : 2 ^ (m + m + -54) == h * h * (1 # 18014398509481984)) by (unfold h; rewrite !two_plus; reflexivity). rewrite <- E.
    unfold absolute. apply Qpower_le_compat_l; [cbn [f_emin b64]; lia | lra]. }
  set (d := fun x => value (fsub b64 (Fin x) (Fin y))). set (g := fun x => value (square (fsub b64 (Fin x) (Fin y)))).
  assert (Dx : forall x, Qabs x <= h -> fsub b64 (Fin x) (Fin y) = Fin (d x) /\ Qabs (d x) <= h * 2 /\ Qabs (d x - (x - y)) <= h * (3 # 9007199254740992)).
  { intros x Hx. unfold d. unfold fsub. cbn [fopp fadd].
    assert (B : Qabs (x + - y) <= inject_Z 1 * 2 ^ (m + 1)).
    { eapply Qle_trans; [apply Qabs_triangle|]. rewrite Qabs_opp, H1. change (inject_Z 1) with 1. lra. }
    destruct (rnd_within b64 sensible64 _ 1 (m + 1) ltac:(cbn [f_prec b64]; lia) ltac:(cbn [f_prec f_emin f_emax b64]; lia) B) as (z & Hz & Bz).
    rewrite Hz. cbn [value]. split; [reflexivity|]. rewrite H1 in Bz, B. change (inject_Z 1) with 1 in *. split; [lra|].
    pose proof (rnd_error b64 sensible64 _ _ Hz) as R. assert (Rel : relative b64 == 1 # 9007199254740992) by reflexivity. rewrite Rel in R.
    unfold Qminus at 2. lra. }
  assert (Gx : forall x, Qabs x <= h -> square (fsub b64 (Fin x) (Fin y)) = Fin (g x) /\ 0 <= g x /\ g x <= h * h * 4 /\
                Qabs (g x - d x * d x) <= h * h * (5 # 9007199254740992)).
  { intros x Hx. destruct (Dx x Hx) as (Hd & Bd & _). unfold g. rewrite Hd. unfold square. cbn [fmul].
    pose proof (sq_le _ _ Bd) as Sq. assert (S0 : 0 <= d x * d x).
    { destruct (Qlt_le_dec (d x) 0); [setoid_replace (d x * d x) with (- d x * - d x) by ring|]; apply Qmult_le_0_compat; lra. }
    assert (B : Qabs (d x * d x) <= inject_Z 1 * 2 ^ (2 * m + 2)).
    { rewrite Qabs_pos by exact S0. rewrite H2. change (inject_Z 1) with 1. lra. }
    destruct (rnd_within b64 sensible64 _ 1 (2 * m + 2) ltac:(cbn [f_prec b64]; lia) ltac:(cbn [f_prec f_emin f_emax b64]; lia) B) as (z & Hz & Bz).
    rewrite Hz. cbn [value]. split; [reflexivity|]. rewrite H2 in Bz. change (inject_Z 1) with 1 in Bz.
    split; [exact (rnd_ge b64 sensible64 _ _ _ Hz (zero_representable b64 sensible64) S0)|].
    split; [apply Qabs_Qle_condition in Bz; lra|].
    pose proof (rnd_error b64 sensible64 _ _ Hz) as R. assert (Rel : relative b64 == 1 # 9007199254740992) by reflexivity. rewrite Rel in R.
    rewrite (Qabs_pos (d x * d x)) in R by exact S0. lra. }
  assert (V : variance (map Fin l) = mean (map Fin (map g l))).
  { apply variance_mean; [|apply map_length]. unfold deviations. rewrite !map_map. apply map_ext_in. intros x Hx. rewrite Hy. apply (Gx x (W x Hx)). }
  assert (Wg : within (2 ^ (2 * m + 2)) (map g l)).
  { intros z Hz. apply in_map_iff in Hz as (x & <- & Hx). destruct (Gx x (W x Hx)) as (_ & G0 & G1 & _). rewrite Qabs_pos by exact G0. rewrite H2. exact G1. }
  destruct (mean_bound (2 * m + 2) ltac:(lia) (map g l)) as (v & Hv & Bv & Ev); [rewrite map_length; exact Hn | exact Wg|].
  exists v. split; [congruence|]. pose proof (variance_sign (map Fin l)) as S. rewrite V, Hv in S. cbn [at_least] in S. split; [exact S|].
  rewrite Qabs_pos in Bv by exact S. split; [exact Bv|].
  rewrite map_length in Ev. fold n in Ev. rewrite H54 in Ev. rewrite H51.
  assert (N1 : 1 <= n) by (unfold n; change 1 with (inject_Z 1); rewrite <- Zle_Qle; lia).
  assert (A : Qabs (average (map g l) - spread l) <= h * h * (5 # 9007199254740992) + 4 * h * (h * (3 # 9007199254740992) + (n + 7) * (h * (1 # 18014398509481984)))).
  { unfold spread. apply average_ext; [exact Hl|]. intros x Hx. pose proof (W x Hx) as Wx. destruct (Dx x Wx) as (_ & Bd & Ed). destruct (Gx x Wx) as (_ & _ & _ & Eg).
    set (c := average l) in *. assert (Bc : Qabs (x - c) <= h * 2).
    { unfold Qminus. eapply Qle_trans; [apply Qabs_triangle|]. rewrite Qabs_opp. pose proof (average_within h l Hl W) as Ba. fold c in Ba. lra. }
    assert (Dc : Qabs (d x - (x - c)) <= h * (3 # 9007199254740992) + (n + 7) * (h * (1 # 18014398509481984))).
    { setoid_replace (d x - (x - c)) with ((d x - (x - y)) + - (y - c)) by ring. eapply Qle_trans; [apply Qabs_triangle|]. rewrite Qabs_opp. rewrite U54 in Ey. lra. }
    setoid_replace (g x - (x - c) * (x - c)) with ((g x - d x * d x) + (d x - (x - c)) * (d x + (x - c))) by ring.
    eapply Qle_trans; [apply Qabs_triangle|]. rewrite Qabs_Qmult.
    assert (S4 : Qabs (d x + (x - c)) <= 4 * h) by (eapply Qle_trans; [apply Qabs_triangle|]; lra).
    set (ee := h * (3 # 9007199254740992) + (n + 7) * (h * (1 # 18014398509481984))) in *.
    pose proof (Qabs_nonneg (d x - (x - c))). pose proof (Qabs_nonneg (d x + (x - c))).
    assert (Qabs (d x - (x - c)) * Qabs (d x + (x - c)) <= ee * (4 * h)).
    { apply (Qle_trans _ (ee * Qabs (d x + (x - c)))); [apply Qmult_le_compat_r; assumption|]. rewrite (Qmult_comm ee), (Qmult_comm ee). apply Qmult_le_compat_r; [exact S4 | lra]. }
    lra. }
  assert (Tr : Qabs (v - spread l) <= Qabs (v - average (map g l)) + Qabs (average (map g l) - spread l)).
  { setoid_replace (v - spread l) with ((v - average (map g l)) + (average (map g l) - spread l)) by ring. apply Qabs_triangle. }
  eapply Qle_trans; [exact Tr|]. assert (Hh : 0 < h * h) by (apply Qmult_lt_0_compat; exact Pm).
  set (k := h * h) in *. assert (Nk : 0 <= n * k) by (apply Qmult_le_0_compat; lra).
  assert (E1 : h * h * (5 # 9007199254740992) + 4 * h * (h * (3 # 9007199254740992) + (n + 7) * (h * (1 # 18014398509481984))) == k * (5 # 9007199254740992) + 4 * k * (3 # 9007199254740992) + 4 * (n * k) * (1 # 18014398509481984) + 28 * k * (1 # 18014398509481984)) by (unfold k; ring).
  assert (E2 : (n + 7) * (k * (1 # 4503599627370496)) == (n * k) * (1 # 4503599627370496) + 7 * k * (1 # 4503599627370496)) by ring.
  assert (E3 : (n + 16) * (k * (1 # 2251799813685248)) == (n * k) * (1 # 2251799813685248) + 16 * k * (1 # 2251799813685248)) by ring.
  assert (Kk : k == h * h) by reflexivity. lra.
Qed.
