(** Proofs about ratios of counters in single precision. *)
From Coq Require Import QArith Qround Qabs Qpower Lqa Lia List.
From Verif Require Import Base Tracker Width Helpers Float SpecDouble FloatBase FloatStats SpecSample FloatStatsProof.
Open Scope Q_scope.

Definition ratio (a b : Z) : float := fdiv b32 (of_int b32 a) (of_int b32 b).
Lemma int_finite n : (0 <= n < 2 ^ 64)%Z -> exists x, of_int b32 n = Fin x /\ Qabs (x - inject_Z n) <= inject_Z n * 2 ^ (-24) + 2 ^ (-150).
Proof.
  intros H. destruct (rnd_finite b32 sensible32 (inject_Z n)) as [x Hx].
  { rewrite inject_abs. apply (Qle_trans _ (2 ^ 64)); [rewrite two_int by lia; rewrite <- Zle_Qle; lia | vm_compute; discriminate]. }
  exists x. split; [exact Hx|]. pose proof (rnd_error b32 sensible32 _ _ Hx) as E. rewrite inject_abs, Z.abs_eq in E by lia. exact E.
Qed.
Lemma one32 : representable_in b32 1.
Proof. apply (small_int b32 sensible32 1). reflexivity. Qed.
Lemma int_one n x : (1 <= n)%Z -> of_int b32 n = Fin x -> 1 <= x.
Proof. intros H E. apply (rnd_ge b32 sensible32 _ _ _ E one32). change 1 with (inject_Z 1). rewrite <- Zle_Qle. exact H. Qed.
Lemma int_zero : of_int b32 0 = Fin 0.
Proof. reflexivity. Qed.

Lemma ratio_none a : (0 <= a <= 0)%Z -> ratio a 0 = NaN.
Proof. intros H. replace a with 0%Z by lia. reflexivity. Qed.
(** The counters, converted. *)
Lemma ratio_parts a b : (0 <= a <= b)%Z -> (0 < b < 2 ^ 64)%Z -> exists x y,
  of_int b32 a = Fin x /\ of_int b32 b = Fin y /\ 0 <= x /\ x <= y /\ 1 <= y /\ y <= 2 ^ 64 /\
  ratio a b = round_to b32 (x / y) /\ 0 <= x / y /\ x / y <= 1.
Proof.
  intros Ha Hb. destruct (int_finite a) as (x & Hx & Ex); [lia|]. destruct (int_finite b) as (y & Hy & Ey); [lia|].
  assert (Y1 : 1 <= y) by (apply (int_one b); [lia | exact Hy]).
  assert (X0 : 0 <= x) by (pose proof (int_sign b32 sensible32 a ltac:(lia)) as S; rewrite Hx in S; exact S).
  assert (XY : x <= y) by (refine (rnd_monotone b32 sensible32 _ _ _ _ _ Hx Hy); rewrite <- Zle_Qle; lia).
  assert (Yu : y <= 2 ^ 64).
  { apply (rnd_le b32 sensible32 _ _ _ Hy).
    - apply (power_representable b32 sensible32). cbn. lia.
    - rewrite two_int by lia. rewrite <- Zle_Qle. lia. }
  exists x, y. split; [exact Hx|]. split; [exact Hy|]. split; [exact X0|]. split; [exact XY|]. split; [exact Y1|]. split; [exact Yu|]. split.
  - unfold ratio. rewrite Hx, Hy. cbn [fdiv]. destruct (Qeq_bool y 0) eqn:E; [apply Qeq_bool_iff in E; lra | reflexivity].
  - split; [apply Qle_shift_div_l | apply Qle_shift_div_r]; lra.
Qed.
Lemma ratio_range a b : (0 <= a <= b)%Z -> (0 < b < 2 ^ 64)%Z -> exists r, ratio a b = Fin r /\ 0 <= r /\ r <= 1 /\ (r == 0 <-> a = 0%Z).
Proof.
  intros Ha Hb. destruct (ratio_parts a b Ha Hb) as (x & y & Hx & Hy & X0 & XY & Y1 & Yu & E & Q0 & Q1).
  destruct (rnd_finite b32 sensible32 (x / y)) as [r Hr].
  { rewrite Qabs_pos by exact Q0. eapply Qle_trans; [exact Q1 | vm_compute; discriminate]. }
  exists r. split; [congruence|]. pose proof (zero_representable b32 sensible32) as Z0.
  split; [exact (rnd_ge b32 sensible32 _ _ _ Hr Z0 Q0)|]. split; [exact (rnd_le b32 sensible32 _ _ _ Hr one32 Q1)|].
  split; intros Hz.
  - destruct (Z.eq_dec a 0) as [H|H]; [exact H|exfalso]. assert (X1 : 1 <= x) by (apply (int_one a); [lia | exact Hx]).
    assert (B : 2 ^ (-64) <= r).
    { apply (rnd_ge b32 sensible32 _ _ _ Hr); [apply (power_representable b32 sensible32); cbn; lia|]. apply Qle_shift_div_l; [lra|].
      apply (Qle_trans _ (2 ^ (-64) * 2 ^ 64)); [|eapply Qle_trans; [|exact X1]; vm_compute; discriminate].
      rewrite (Qmult_comm _ y), (Qmult_comm _ (2 ^ 64)). apply Qmult_le_compat_r; [exact Yu | vm_compute; discriminate]. }
    assert (P : 0 < 2 ^ (-64)) by apply two_pos. lra.
  - subst a. rewrite int_zero in Hx. injection Hx as <-. assert (L : 0 / y <= 0) by (apply Qle_shift_div_r; lra).
    apply Qle_antisym; [exact (rnd_le b32 sensible32 _ _ _ Hr Z0 L) | exact (rnd_ge b32 sensible32 _ _ _ Hr Z0 Q0)].
Qed.
Lemma int_exact n : (0 <= n <= 2 ^ 24)%Z -> exists x, of_int b32 n = Fin x /\ x == inject_Z n.
Proof.
  intros H. apply (rnd_exact b32 sensible32). apply (comp_representable b32 (inject_Z n * 2 ^ 0)); [change (2 ^ 0) with 1; ring|].
  apply (grid_representable b32 sensible32); cbn [f_prec f_emin f_emax b32]; [rewrite Z.abs_eq|]; lia.
Qed.
Lemma ratio_exact a b : (0 <= a <= b)%Z -> (0 < b <= 2 ^ 24)%Z -> ratio a b = round_to b32 (inject_Z a / inject_Z b).
Proof.
  intros Ha Hb. destruct (ratio_parts a b Ha ltac:(lia)) as (x & y & Hx & Hy & _ & _ & _ & _ & E & _). rewrite E.
  destruct (int_exact a) as (x' & Hx' & Ex); [lia|]. destruct (int_exact b) as (y' & Hy' & Ey); [lia|].
  assert (x' = x) by congruence. assert (y' = y) by congruence. subst. apply rnd_eq. rewrite Ex, Ey. reflexivity.
Qed.
Lemma ratio_one a b r : (0 <= a <= b)%Z -> (0 < b <= 2 ^ 24)%Z -> ratio a b = Fin r -> (r == 1 <-> a = b).
Proof.
  intros Ha Hb H. rewrite (ratio_exact a b Ha Hb) in H. assert (B : 0 < inject_Z b) by (change 0 with (inject_Z 0); rewrite <- Zlt_Qlt; lia). split.
  - intros E. destruct (Z.eq_dec a b) as [S|S]; [exact S|exfalso].
    assert (L : r <= inject_Z (2 ^ 24 - 1) * 2 ^ (-24)).
    { apply (rnd_le b32 sensible32 _ _ _ H); [apply (grid_representable b32 sensible32); cbn [f_prec f_emin f_emax b32]; [rewrite Z.abs_eq|]; lia|].
      apply Qle_shift_div_r; [exact B|].
      assert (A1 : inject_Z a <= inject_Z b - 1).
      { change 1 with (inject_Z 1). unfold Qminus. rewrite <- inject_Z_opp, <- inject_Z_plus, <- Zle_Qle. lia. }
      assert (B1 : inject_Z b <= 16777216 # 1) by (change (16777216 # 1) with (inject_Z (2 ^ 24)); rewrite <- Zle_Qle; lia).
      change (inject_Z (2 ^ 24 - 1)) with (16777215 # 1). change (2 ^ (-24)) with (1 # 16777216). lra. }
    rewrite E in L. vm_compute in L. apply L. reflexivity.
  - intros ->. assert (E : inject_Z b / inject_Z b == 1) by (field; lra). rewrite (rnd_eq b32 _ _ E) in H.
    destruct (rnd_exact b32 sensible32 1 one32) as (z & Hz & Ez). rewrite Hz in H. injection H as <-. exact Ez.
Qed.
Lemma ratio_error a b r : (0 <= a <= b)%Z -> (0 < b < 2 ^ 64)%Z -> ratio a b = Fin r -> Qabs (r - inject_Z a / inject_Z b) <= 2 ^ (-22).
Proof.
  intros Ha Hb H. destruct (ratio_parts a b Ha Hb) as (x & y & Hx & Hy & X0 & XY & Y1 & Yu & E & Q0 & Q1). rewrite E in H.
  pose proof (rnd_error b32 sensible32 _ _ H) as R. rewrite (Qabs_pos (x / y)) in R by exact Q0.
  destruct (int_finite a) as (x' & Hx' & Ex); [lia|]. destruct (int_finite b) as (y' & Hy' & Ey); [lia|].
  assert (x' = x) by congruence. assert (y' = y) by congruence. subst. unfold relative, absolute in R. cbn [f_prec f_emin b32] in R.
  change (-149 - 1)%Z with (-150)%Z in R. change (- (24))%Z with (-24)%Z in R.
  set (u := 2 ^ (-24)) in *. set (t := 2 ^ (-150)) in *.
  assert (U : u == 1 # 16777216) by reflexivity. assert (T0 : 0 < t) by apply two_pos. assert (T1 : t <= 1 # 1000000000) by (vm_compute; discriminate).
  assert (B1 : 1 <= inject_Z b) by (change 1 with (inject_Z 1); rewrite <- Zle_Qle; lia).
  assert (A0 : 0 <= inject_Z a) by (change 0 with (inject_Z 0); rewrite <- Zle_Qle; lia).
  assert (AB : inject_Z a <= inject_Z b) by (rewrite <- Zle_Qle; lia).
  set (A := inject_Z a) in *. set (B := inject_Z b) in *.
  apply Qabs_Qle_condition in Ex as [Ex1 Ex2]. apply Qabs_Qle_condition in Ey as [Ey1 Ey2]. apply Qabs_Qle_condition in R as [R1 R2].
  set (w := 1 # 15000000).
  assert (Xa : A - B * w <= x /\ x <= A + B * w) by (unfold w; split; nra).
  assert (Yb : B - B * w <= y /\ y <= B + B * w) by (unfold w; split; nra).
  destruct Xa as [Xa1 Xa2]. destruct Yb as [Yb1 Yb2].
  assert (Yp : 0 < y) by lra. assert (Bp : 0 < B) by lra.
  set (q := A / B). assert (Aq : A == q * B) by (unfold q; field; lra).
  assert (q0 : 0 <= q) by (unfold q; apply Qle_shift_div_l; lra). assert (q1 : q <= 1) by (unfold q; apply Qle_shift_div_r; lra).
  set (s := x / y) in *. assert (Xs : x == s * y) by (unfold s; field; lra).
  assert (G : q - (3 # 20000000) <= s /\ s <= q + (3 # 20000000)).
  { unfold w in *. split.
    - unfold s. apply Qle_shift_div_l; [exact Yp|].
      assert (M : (q - (3 # 20000000)) * y <= (q * B + B * w) - (3 # 20000000) * (B - B * w)).
      { assert (q * y <= q * (B + B * w)) by (rewrite (Qmult_comm q y), (Qmult_comm q (B + B * w)); apply Qmult_le_compat_r; assumption).
        assert (q * (B * w) <= B * w) by (assert (0 <= B * w) by (unfold w; lra); rewrite <- (Qmult_1_l (B * w)) at 2; apply Qmult_le_compat_r; assumption).
        unfold w in *. lra. }
      eapply Qle_trans; [exact M|]. unfold w. lra.
    - unfold s. apply Qle_shift_div_r; [exact Yp|].
      assert (M : (q * B - B * w) + (3 # 20000000) * (B - B * w) <= (q + (3 # 20000000)) * y).
      { assert (q * (B - B * w) <= q * y) by (rewrite (Qmult_comm q y), (Qmult_comm q (B - B * w)); apply Qmult_le_compat_r; assumption).
        assert (q * (B * w) <= B * w) by (assert (0 <= B * w) by (unfold w; lra); rewrite <- (Qmult_1_l (B * w)) at 2; apply Qmult_le_compat_r; assumption).
        unfold w in *. lra. }
      eapply Qle_trans; [|exact M]. unfold w. lra. }
  destruct G as [G1 G2]. assert (V : 2 ^ (-22) == 1 # 4194304) by reflexivity. apply Qabs_Qle_condition. fold q. rewrite V. nra.
Qed.
Lemma ratio_one_wrong : ratio (2 ^ 24) (2 ^ 24 + 1) = ratio 1 1.
Proof. vm_compute. reflexivity. Qed.
