(** Rounding to double precision and back to decimals. *)
From Coq Require Import QArith Qround Qabs Qpower Lqa Lia.
From Verif Require Import Base Width Helpers Float SpecDouble FloatBase.
Open Scope Q_scope.

Lemma round_error x y : round64 x = Fin y -> Qabs (y - x) <= Qabs x * 2 ^ (-53) + tiny.
Proof. exact (rnd_error b64 sensible64 x y). Qed.
Lemma round_finite x : Qabs x <= 2 ^ 1000 -> exists y, round64 x = Fin y.
Proof.
  intros H. apply (rnd_finite b64 sensible64). eapply Qle_trans; [exact H|]. apply Qpower_le_compat_l; [cbn; lia | lra].
Qed.
Lemma round_exact x : representable x -> exists y, round64 x = Fin y /\ y == x.
Proof. exact (rnd_exact b64 sensible64 x). Qed.
Lemma round_lands x y : round64 x = Fin y -> representable y.
Proof. exact (rnd_lands b64 sensible64 x y). Qed.
Lemma round_best x y r : round64 x = Fin y -> representable r -> Qabs (y - x) <= Qabs (r - x).
Proof. exact (rnd_best b64 sensible64 x y r). Qed.

(** ** Back to integers *)
Lemma sgn_pos q : 0 < q -> Z.sgn (Qnum q) = 1%Z.
Proof. destruct q as [n d]. unfold Qlt. cbn. intros. apply Z.sgn_pos. lia. Qed.
Lemma sgn_neg q : q < 0 -> Z.sgn (Qnum q) = (-1)%Z.
Proof. destruct q as [n d]. unfold Qlt. cbn. intros. apply Z.sgn_neg. lia. Qed.
Lemma half_floor q z : inject_Z z <= q + (1 # 2) -> q + (1 # 2) < inject_Z z + 1 -> Qfloor (q + (1 # 2)) = z.
Proof.
  intros A B. assert (C : (z <= Qfloor (q + (1 # 2)))%Z) by (rewrite <- (Qfloor_Z z); apply Qfloor_resp_le; exact A).
  assert (D : (Qfloor (q + (1 # 2)) < z + 1)%Z).
  { rewrite Zlt_Qlt, inject_Z_plus. change (inject_Z 1) with 1. eapply Qle_lt_trans; [apply Qfloor_le | exact B]. }
  lia.
Qed.
Lemma half_unique q z : Qabs (q - inject_Z z) < 1 # 2 -> half_away q = z.
Proof.
  intros H. apply Qabs_Qlt_condition in H as [H1 H2]. unfold half_away. destruct (Q_dec q 0) as [[L|L]|L].
  - rewrite (sgn_neg q L), (Qabs_neg q) by lra. rewrite (half_floor _ (- z)); [lia | rewrite inject_Z_opp; lra | rewrite inject_Z_opp; lra].
  - rewrite (sgn_pos q L), (Qabs_pos q) by lra. rewrite (half_floor _ z); [lia | lra | lra].
  - destruct q as [n d]. assert (n = 0%Z) as -> by (unfold Qeq in L; cbn in L; lia). cbn [Qnum Z.sgn].
    assert (A : inject_Z z < inject_Z 1) by (change (inject_Z 1) with 1; lra). assert (B : inject_Z (-1) < inject_Z z) by (change (inject_Z (-1)) with (- (1)); lra).
    rewrite <- Zlt_Qlt in A, B. lia.
Qed.
Lemma half_error q : Qabs (inject_Z (half_away q) - q) <= 1 # 2.
Proof.
  apply Qabs_Qle_condition. unfold half_away. pose proof (Qfloor_le (Qabs q + (1 # 2))) as L. pose proof (Qlt_floor (Qabs q + (1 # 2))) as U.
  rewrite inject_Z_plus in U. change (inject_Z 1) with 1 in U. destruct (Q_dec q 0) as [[D|D]|D].
  - rewrite (sgn_neg q D). assert (A : Qabs q == - q) by (apply Qabs_neg; lra). set (n := Qfloor (Qabs q + (1 # 2))) in *. rewrite inject_Z_mult. change (inject_Z (-1)) with (- (1)). split; lra.
  - rewrite (sgn_pos q D). assert (A : Qabs q == q) by (apply Qabs_pos; lra). set (n := Qfloor (Qabs q + (1 # 2))) in *. rewrite inject_Z_mult. change (inject_Z 1) with 1. split; lra.
  - destruct q as [n d]. assert (n = 0%Z) as -> by (unfold Qeq in D; cbn in D; lia). cbn [Qnum Z.sgn Z.mul]. change (inject_Z 0) with 0. split; lra.
Qed.
Lemma as_i64_int z : as_i64 (Fin (inject_Z z)) = clamp z.
Proof. unfold as_i64, inject_Z. cbn [Qnum Qden]. rewrite Z.quot_1_r. reflexivity. Qed.

(** ** Decimals *)
Lemma ten_exact (D : nat) : (D <= 22)%nat -> exists y, round64 (inject_Z (10 ^ Z.of_nat D)) = Fin y /\ y == inject_Z (10 ^ Z.of_nat D).
Proof.
  intros H. do 23 (destruct D as [|D]; [eexists; split; [vm_compute; reflexivity | vm_compute; reflexivity]|]). lia.
Qed.
Lemma same_scale m (D : nat) i : try_from_scaled m (10 ^ Z.of_nat D) i D = Some i.
Proof.
  unfold try_from_scaled. assert (P : (0 < 10 ^ Z.of_nat D)%Z) by (apply Z.pow_pos_nonneg; lia).
  rewrite Z.quot_mul by lia. rewrite Z.eqb_refl. reflexivity.
Qed.
(** The conversion of a finite number is the clamped rounded product. *)
Lemma decimal_value m w D x : (D <= 22)%nat ->
  decimal_from_f64 m w D (Fin x) =
  let i := as_i64 (round (mul64 (Fin x) (round64 (inject_Z (10 ^ Z.of_nat D))))) in
  if fits w i then Ok i else Err IntegerConversion.
Proof. intros H. unfold decimal_from_f64. cbv zeta. rewrite same_scale. reflexivity. Qed.
Lemma product_error D x : (D <= 22)%nat -> Qabs (units D x) <= 2 ^ 1000 ->
  exists y, mul64 (Fin x) (round64 (inject_Z (10 ^ Z.of_nat D))) = Fin y /\
    Qabs (y - units D x) <= Qabs (units D x) * 2 ^ (-53) + tiny.
Proof.
  unfold units. intros HD H. destruct (ten_exact D HD) as (t & -> & Ht). unfold mul64. cbn [fmul]. fold round64.
  assert (E : x * t == x * inject_Z (10 ^ Z.of_nat D)) by (rewrite Ht; reflexivity). rewrite <- E in H.
  destruct (round_finite _ H) as [y Hy]. exists y. split; [exact Hy|]. rewrite <- E. apply round_error. exact Hy.
Qed.
