(** What the conversion of a double to a decimal gives. *)
From Coq Require Import QArith Qround Qabs Qpower Lqa Lia.
From Verif Require Import Base Width Helpers Float SpecDouble FloatBase FloatProof.
Open Scope Q_scope.

Lemma tiny_small : 0 < tiny /\ tiny <= 2 ^ (-200).
Proof. split; [apply two_pos | apply Qpower_le_compat_l; [lia | lra]]. Qed.
Lemma mantissa : 2 ^ (-53) == 1 # 9007199254740992.
Proof. reflexivity. Qed.

Lemma clamp_id z : (- 2 ^ 63 <= z < 2 ^ 63)%Z -> clamp z = z.
Proof. unfold clamp. lia. Qed.
Lemma int_between (z n : Z) : inject_Z z < inject_Z n + 1 -> (z <= n)%Z.
Proof. intros H. change 1 with (inject_Z 1) in H. rewrite <- inject_Z_plus, <- Zlt_Qlt in H. lia. Qed.

Lemma abs_le_int (z n : Z) q e : Qabs (inject_Z z - q) <= e -> Qabs q + e < inject_Z n + 1 -> (- n <= z <= n)%Z.
Proof.
  intros A B. apply Qabs_Qle_condition in A as [A1 A2]. pose proof (Qle_Qabs q) as L. pose proof (Qle_Qabs (- q)) as M. rewrite Qabs_opp in M.
  assert (z <= n)%Z by (apply int_between; lra). assert (- z <= n)%Z by (apply int_between; rewrite inject_Z_opp; lra). lia.
Qed.

Lemma decimal_near m w D x : (D <= 22)%nat -> Qabs (units D x) <= 2 ^ 62 ->
  exists z, Qabs (inject_Z z - units D x) <= (1 # 2) + Qabs (units D x) * 2 ^ (-53) + tiny /\
    decimal_from_f64 m w D (Fin x) = if fits w z then Ok z else Err IntegerConversion.
Proof.
  intros HD H. rewrite decimal_value by exact HD. cbv zeta.
  destruct (product_error D x HD) as (y & -> & Hy). { eapply Qle_trans; [exact H|]. apply Qpower_le_compat_l; [lia | lra]. }
  cbn [round]. rewrite as_i64_int. pose proof (half_error y) as Hh.
  assert (T : Qabs (inject_Z (half_away y) - units D x) <= Qabs (inject_Z (half_away y) - y) + Qabs (y - units D x)).
  { setoid_replace (inject_Z (half_away y) - units D x) with ((inject_Z (half_away y) - y) + (y - units D x)) by ring. apply Qabs_triangle. }
  assert (E : Qabs (inject_Z (half_away y) - units D x) <= (1 # 2) + Qabs (units D x) * 2 ^ (-53) + tiny) by lra.
  exists (half_away y). split; [exact E|]. rewrite clamp_id; [reflexivity|].
  assert (B : (- (2 ^ 63 - 1) <= half_away y <= 2 ^ 63 - 1)%Z).
  { eapply abs_le_int; [exact E|]. unfold Z.sub. rewrite inject_Z_plus, inject_Z_opp, <- two_int by lia. change (inject_Z 1) with 1.
    rewrite mantissa. destruct tiny_small as [_ S]. change (2 ^ (-200)) with (/ inject_Z (2 ^ 200)) in S.
    assert (S2 : tiny <= 1). { eapply Qle_trans; [exact S|]. vm_compute. discriminate. }
    assert (U : 2 ^ 62 == inject_Z 4611686018427387904) by reflexivity. assert (W : 2 ^ 63 == inject_Z 9223372036854775808) by reflexivity.
    rewrite U in H. rewrite W. unfold inject_Z in *. lra. }
  lia.
Qed.

Lemma ten_pos D : 0 < inject_Z (10 ^ Z.of_nat D).
Proof. change 0 with (inject_Z 0). rewrite <- Zlt_Qlt. apply Z.pow_pos_nonneg; lia. Qed.
Lemma units_decimal D z : units D (decimal D z) == inject_Z z.
Proof. unfold units, decimal. pose proof (ten_pos D). field. lra. Qed.
Lemma units_minus D x y : units D x - units D y == units D (x - y).
Proof. unfold units. ring. Qed.
Lemma units_abs D x : Qabs (units D x) == units D (Qabs x).
Proof. unfold units. apply abs_mult_pos, ten_pos. Qed.
Lemma units_le D x y : x <= y -> units D x <= units D y.
Proof. intros H. unfold units. apply Qmult_le_r; [apply ten_pos | exact H]. Qed.

Lemma decimal_back m w D x z : (D <= 22)%nat -> (Z.abs z <= 2 ^ 50)%Z -> fits w z = true ->
  Qabs (x - decimal D z) <= Qabs (decimal D z) * 2 ^ (-52) -> decimal_from_f64 m w D (Fin x) = Ok z.
Proof.
  intros HD Hz Hf Hx. assert (Az : Qabs (inject_Z z) <= inject_Z (2 ^ 50)) by (rewrite inject_abs, <- Zle_Qle; exact Hz).
  assert (P : Qabs (units D x - inject_Z z) <= Qabs (inject_Z z) * 2 ^ (-52)).
  { rewrite <- (units_decimal D z) at 1. rewrite units_minus, units_abs. eapply Qle_trans; [apply units_le; exact Hx|].
    rewrite <- (units_decimal D z), units_abs. unfold units. apply Qle_lteq. right. ring. }
  assert (M52 : 2 ^ (-52) == 1 # 4503599627370496) by reflexivity. rewrite M52 in P.
  assert (W50 : inject_Z (2 ^ 50) == 1125899906842624 # 1) by reflexivity. rewrite W50 in Az.
  assert (U : Qabs (units D x) <= 1125899906842625 # 1).
  { assert (T : Qabs (units D x) <= Qabs (units D x - inject_Z z) + Qabs (inject_Z z)).
    { setoid_replace (units D x) with (units D x - inject_Z z + inject_Z z) at 1 by ring. apply Qabs_triangle. }
    lra. }
  destruct (product_error D x HD) as (y & Ey & Hy). { eapply Qle_trans; [exact U|]. vm_compute. discriminate. }
  rewrite decimal_value by exact HD. cbv zeta. rewrite Ey. cbn [round]. rewrite as_i64_int.
  assert (R : half_away y = z).
  { apply half_unique. assert (T : Qabs (y - inject_Z z) <= Qabs (y - units D x) + Qabs (units D x - inject_Z z)).
    { setoid_replace (y - inject_Z z) with ((y - units D x) + (units D x - inject_Z z)) by ring. apply Qabs_triangle. }
    rewrite mantissa in Hy. destruct tiny_small as [_ S]. assert (S2 : tiny <= 1 # 1000). { eapply Qle_trans; [exact S|]. vm_compute. discriminate. }
    lra. }
  rewrite R, clamp_id by lia. rewrite Hf. reflexivity.
Qed.
Lemma decimal_parsed m w D x z : (D <= 22)%nat -> (Z.abs z <= 2 ^ 50)%Z -> fits w z = true ->
  round64 (decimal D z) = Fin x -> decimal_from_f64 m w D (Fin x) = Ok z.
Proof.
  intros HD Hz Hf Hx. apply decimal_back; try assumption.
  destruct (Z.eq_dec z 0) as [->|N].
  - assert (Z0 : decimal D 0 == 0) by (unfold decimal; pose proof (ten_pos D); field; lra).
    unfold round64, round_to in Hx. assert (E : Qeq_bool (decimal D 0) 0 = true) by (apply Qeq_bool_iff; exact Z0). rewrite E in Hx. injection Hx as <-.
    rewrite Z0. vm_compute. discriminate.
  - pose proof (round_error _ _ Hx) as H. eapply Qle_trans; [exact H|].
    assert (L : 2 ^ (-80) <= Qabs (decimal D z)).
    { unfold decimal, Qdiv. pose proof (ten_pos D) as Tp. assert (I : 0 < / inject_Z (10 ^ Z.of_nat D)) by (apply Qinv_lt_0_compat; exact Tp).
      rewrite abs_mult_pos by exact I. apply Qle_shift_div_l; [exact Tp|].
      apply (Qle_trans _ 1).
      - assert (Le : inject_Z (10 ^ Z.of_nat D) <= inject_Z (10 ^ 22)) by (rewrite <- Zle_Qle; apply Z.pow_le_mono_r; lia).
        apply (Qle_trans _ (2 ^ (-80) * inject_Z (10 ^ 22))); [apply Qmult_le_l; [apply two_pos | exact Le]|]. vm_compute. discriminate.
      - rewrite inject_abs. change 1 with (inject_Z 1). rewrite <- Zle_Qle. lia. }
    destruct tiny_small as [_ S]. assert (T2 : 2 ^ (-200) <= Qabs (decimal D z) * 2 ^ (-53)).
    { apply (Qle_trans _ (2 ^ (-80) * 2 ^ (-53))); [vm_compute; discriminate|]. apply Qmult_le_r; [apply two_pos | exact L]. }
    assert (M : 2 ^ (-52) == 2 ^ (-53) + 2 ^ (-53)) by reflexivity. rewrite M, Qmult_plus_distr_r. lra.
Qed.

(** ** Integers of fewer bits *)
Lemma fits_iff w z : fits w z = true <-> (- 2 ^ (w - 1) <= z < 2 ^ (w - 1))%Z.
Proof. unfold fits. rewrite andb_true_iff, Z.leb_le, Z.ltb_lt. lia. Qed.
Lemma decimal_fits m w D x : (D <= 22)%nat -> (1 <= w <= 50)%Z -> Qabs (units D x) <= 2 ^ (w - 1) - 2 ->
  exists z, decimal_from_f64 m w D (Fin x) = Ok z /\ Qabs (inject_Z z - units D x) <= (1 # 2) + Qabs (units D x) * 2 ^ (-53) + tiny.
Proof.
  intros HD Hw H. assert (P : (0 < 2 ^ (w - 1) <= 2 ^ 49)%Z) by (split; [apply Z.pow_pos_nonneg; lia | apply Z.pow_le_mono_r; lia]).
  rewrite two_int in H by lia.
  assert (B : inject_Z (2 ^ (w - 1)) <= inject_Z (2 ^ 49)) by (rewrite <- Zle_Qle; lia). assert (W49 : inject_Z (2 ^ 49) == 562949953421312 # 1) by reflexivity. rewrite W49 in B.
  assert (U : 2 ^ 62 == 4611686018427387904 # 1) by reflexivity.
  destruct (decimal_near m w D x HD) as (z & Hz & E). { rewrite U. lra. }
  exists z. split; [|exact Hz]. rewrite E. assert (F : fits w z = true); [|rewrite F; reflexivity].
  apply fits_iff. assert (A : (- (2 ^ (w - 1) - 1) <= z <= 2 ^ (w - 1) - 1)%Z); [|lia].
  eapply abs_le_int; [exact Hz|]. replace (2 ^ (w - 1) - 1)%Z with (2 ^ (w - 1) + -1)%Z by lia. rewrite inject_Z_plus. change (inject_Z (-1)) with (- (1)). rewrite mantissa.
  destruct tiny_small as [_ S]. assert (S2 : tiny <= 1 # 1000) by (eapply Qle_trans; [exact S | vm_compute; discriminate]). lra.
Qed.

(** ** Large numbers *)
Definition beyond (s : bool) (a : float) : Prop :=
  match a with Fin y => if s then y <= - (2 ^ 63) else 2 ^ 63 <= y | Inf t => t = s | NaN => False end.
Lemma round_large x : 2 ^ 63 <= x -> beyond false (round64 x).
Proof.
  intros H. assert (P63 : 0 < 2 ^ 63) by apply two_pos. unfold round64, round_to. destruct (Qeq_bool x 0) eqn:E0; [apply Qeq_bool_iff in E0; lra|].
  assert (A : Qabs x == x) by (apply Qabs_pos; lra). assert (P : 0 < Qabs x) by lra.
  destruct (binade_bounds _ P) as [B1 B2]. set (k := binade (Qabs x)) in *. set (e := Z.max _ _). cbv zeta.
  assert (K : (63 < k + 1)%Z) by (apply (Qpower_lt_compat_l_inv 2); [eapply Qle_lt_trans; [exact H|]; rewrite <- A; exact B2 | lra]).
  assert (Ee : e = (k - 52)%Z) by (unfold e; cbn [f_prec f_emin b64]; lia).
  assert (N : (2 ^ 52 <= nearest_even (x / 2 ^ e))%Z).
  { apply near_ge. rewrite <- two_int by lia. apply Qle_shift_div_l; [apply two_pos|]. rewrite <- two_plus. replace (52 + e)%Z with k by lia. rewrite <- A. exact B1. }
  destruct (Qle_bool _ _).
  - unfold negative. cbn [beyond]. assert (Hl : Qle_bool 0 x = true) by (apply Qle_bool_iff; lra). rewrite Hl. reflexivity.
  - cbn [beyond]. apply (Qle_trans _ (2 ^ (52 + e))); [apply Qpower_le_compat_l; [lia | lra]|]. rewrite two_plus. apply Qmult_le_r; [apply two_pos|].
    rewrite two_int by lia. rewrite <- Zle_Qle. exact N.
Qed.
Lemma round_large_neg x : x <= - (2 ^ 63) -> beyond true (round64 x).
Proof.
  intros H. assert (P63 : 0 < 2 ^ 63) by apply two_pos. unfold round64, round_to. destruct (Qeq_bool x 0) eqn:E0; [apply Qeq_bool_iff in E0; lra|].
  assert (A : Qabs x == - x) by (apply Qabs_neg; lra). assert (P : 0 < Qabs x) by lra.
  destruct (binade_bounds _ P) as [B1 B2]. set (k := binade (Qabs x)) in *. set (e := Z.max _ _). cbv zeta.
  assert (K : (63 < k + 1)%Z) by (apply (Qpower_lt_compat_l_inv 2); [eapply Qle_lt_trans; [|exact B2]; lra | lra]).
  assert (Ee : e = (k - 52)%Z) by (unfold e; cbn [f_prec f_emin b64]; lia).
  assert (N : (nearest_even (x / 2 ^ e) <= - 2 ^ 52)%Z).
  { apply near_le. rewrite inject_Z_opp, <- two_int by lia. apply Qle_shift_div_r; [apply two_pos|].
    setoid_replace (- 2 ^ 52 * 2 ^ e) with (- (2 ^ 52 * 2 ^ e)) by ring. rewrite <- two_plus. replace (52 + e)%Z with k by lia. lra. }
  destruct (Qle_bool _ _).
  - unfold negative. cbn [beyond]. destruct (Qle_bool 0 x) eqn:Hl; [apply Qle_bool_iff in Hl; lra | reflexivity].
  - cbn [beyond]. assert (Q : inject_Z (nearest_even (x / 2 ^ e)) <= - (2 ^ 52)).
    { rewrite Zle_Qle, inject_Z_opp in N. rewrite <- two_int in N by lia. exact N. }
    apply (Qle_trans _ (- (2 ^ 52) * 2 ^ e)); [apply Qmult_le_r; [apply two_pos | exact Q]|].
    setoid_replace (- (2 ^ 52) * 2 ^ e) with (- (2 ^ 52 * 2 ^ e)) by ring. rewrite <- two_plus.
    assert (2 ^ 63 <= 2 ^ (52 + e)) by (apply Qpower_le_compat_l; [lia | lra]). lra.
Qed.
Lemma beyond_int s a : beyond s a -> as_i64 (round a) = if s then (- 2 ^ 63)%Z else (2 ^ 63 - 1)%Z.
Proof.
  destruct a as [|t|y]; cbn [beyond round]; [intros [] | intros ->; destruct s; reflexivity|]. intros H. rewrite as_i64_int. unfold clamp.
  pose proof (half_error y) as Hh. apply Qabs_Qle_condition in Hh as [H1 H2]. destruct s.
  - assert (half_away y <= - 2 ^ 63)%Z; [|lia]. apply int_between. rewrite inject_Z_opp, <- two_int by lia. lra.
  - assert (2 ^ 63 <= half_away y)%Z; [|lia]. apply int_between. rewrite <- two_int by lia. lra.
Qed.
Lemma product_beyond D x s : (D <= 22)%nat -> (if s : bool then units D x <= - (2 ^ 63) else 2 ^ 63 <= units D x) ->
  as_i64 (round (mul64 (Fin x) (round64 (inject_Z (10 ^ Z.of_nat D))))) = if s then (- 2 ^ 63)%Z else (2 ^ 63 - 1)%Z.
Proof.
  intros HD H. apply beyond_int. destruct (ten_exact D HD) as (t & -> & Ht). unfold mul64; cbn [fmul]; fold round64.
  assert (E : x * t == units D x) by (unfold units; rewrite Ht; reflexivity).
  destruct s; [apply round_large_neg | apply round_large]; rewrite E; exact H.
Qed.
Lemma decimal_saturates m w D x : (D <= 22)%nat -> (64 <= w)%Z ->
  (2 ^ 63 <= units D x -> decimal_from_f64 m w D (Fin x) = Ok (2 ^ 63 - 1)%Z) /\
  (units D x <= - (2 ^ 63) -> decimal_from_f64 m w D (Fin x) = Ok (- 2 ^ 63)%Z).
Proof.
  intros HD Hw. assert (Pw : (2 ^ 63 <= 2 ^ (w - 1))%Z) by (apply Z.pow_le_mono_r; lia).
  split; intros H; rewrite decimal_value by exact HD; cbv zeta.
  - rewrite (product_beyond D x false HD H). assert (F : fits w (2 ^ 63 - 1) = true) by (apply fits_iff; lia). rewrite F. reflexivity.
  - rewrite (product_beyond D x true HD H). assert (F : fits w (- 2 ^ 63) = true) by (apply fits_iff; lia). rewrite F. reflexivity.
Qed.
Lemma decimal_too_large m w D x : (D <= 22)%nat -> (1 <= w <= 50)%Z -> 2 ^ (w - 1) + 2 <= Qabs (units D x) ->
  decimal_from_f64 m w D (Fin x) = Err IntegerConversion.
Proof.
  intros HD Hw H. assert (P : (0 < 2 ^ (w - 1) <= 2 ^ 49)%Z) by (split; [apply Z.pow_pos_nonneg; lia | apply Z.pow_le_mono_r; lia]).
  rewrite two_int in H by lia.
  destruct (Qlt_le_dec (2 ^ 62) (Qabs (units D x))) as [L|L].
  - rewrite decimal_value by exact HD. cbv zeta. set (i := as_i64 _).
    assert (I : (2 ^ 61 <= Z.abs i)%Z).
    { unfold i. destruct (ten_exact D HD) as (t & -> & Ht). unfold mul64; cbn [fmul]; fold round64. assert (E : x * t == units D x) by (unfold units; rewrite Ht; reflexivity).
      rewrite <- E in L. destruct (round64 (x * t)) as [|[]|y] eqn:R; cbn [round as_i64].
      - exfalso. unfold round64, round_to in R. destruct (Qeq_bool _ _); [discriminate|]. destruct (Qle_bool _ _); discriminate.
      - lia.
      - lia.
      - fold (as_i64 (Fin (inject_Z (half_away y)))). rewrite as_i64_int. pose proof (round_error _ _ R) as Er. pose proof (half_error y) as Hh.
        assert (T : Qabs (x * t) <= Qabs (y - x * t) + Qabs (inject_Z (half_away y) - y) + Qabs (inject_Z (half_away y))).
        { rewrite <- (Qabs_opp (y - x * t)), <- (Qabs_opp (inject_Z (half_away y) - y)).
          setoid_replace (x * t) with (- (y - x * t) + - (inject_Z (half_away y) - y) + inject_Z (half_away y)) at 1 by ring.
          eapply Qle_trans; [apply Qabs_triangle|]. apply Qplus_le_compat; [apply Qabs_triangle | apply Qle_refl]. }
        rewrite mantissa in Er. rewrite inject_abs in T. destruct tiny_small as [_ S]. assert (S2 : tiny <= 1 # 1000) by (eapply Qle_trans; [exact S | vm_compute; discriminate]).
        assert (U : 2 ^ 62 == 4611686018427387904 # 1) by reflexivity. rewrite U in L.
        assert (C : (2 ^ 61 <= Z.abs (half_away y))%Z). { rewrite Zle_Qle. assert (U61 : inject_Z (2 ^ 61) == 2305843009213693952 # 1) by reflexivity. rewrite U61. lra. }
        unfold clamp. lia. }
    destruct (fits w i) eqn:F; [|reflexivity]. apply fits_iff in F. lia.
  - destruct (decimal_near m w D x HD L) as (z & Hz & ->). destruct (fits w z) eqn:F; [|reflexivity]. exfalso. apply fits_iff in F.
    assert (T : Qabs (units D x) <= Qabs (inject_Z z - units D x) + Qabs (inject_Z z)).
    { rewrite <- (Qabs_opp (inject_Z z - units D x)). setoid_replace (units D x) with (- (inject_Z z - units D x) + inject_Z z) at 1 by ring. apply Qabs_triangle. }
    assert (A : Qabs (inject_Z z) <= inject_Z (2 ^ (w - 1))) by (rewrite inject_abs, <- Zle_Qle; lia).
    assert (B : inject_Z (2 ^ (w - 1)) <= inject_Z (2 ^ 49)) by (rewrite <- Zle_Qle; lia). assert (W49 : inject_Z (2 ^ 49) == 562949953421312 # 1) by reflexivity. rewrite W49 in B.
    rewrite mantissa in Hz. destruct tiny_small as [_ S]. assert (S2 : tiny <= 1 # 1000) by (eapply Qle_trans; [exact S | vm_compute; discriminate]).
    lra.
Qed.
Lemma decimal_total m w D val : match decimal_from_f64 m w D val with Ok _ => True | Err e => e = IntegerConversion /\ (w < 64)%Z end.
Proof.
  unfold decimal_from_f64. cbv zeta. rewrite same_scale. set (i := as_i64 _). destruct (fits w i) eqn:F; [exact I|]. split; [reflexivity|].
  destruct (Z.lt_ge_cases w 64) as [L|L]; [exact L|]. exfalso. assert (Pw : (2 ^ 63 <= 2 ^ (w - 1))%Z) by (apply Z.pow_le_mono_r; lia).
  assert (- 2 ^ 63 <= i < 2 ^ 63)%Z by (unfold i, as_i64, clamp; destruct (round _) as [|[]|]; lia).
  assert (fits w i = true) by (apply fits_iff; lia). congruence.
Qed.
Lemma decimal_nan m w D : (1 <= w)%Z -> decimal_from_f64 m w D NaN = Ok 0%Z.
Proof.
  intros Hw. unfold decimal_from_f64. cbv zeta. unfold mul64; cbn [fmul round as_i64]. rewrite same_scale.
  assert (F : fits w 0 = true) by (apply fits_iff; assert (0 < 2 ^ (w - 1))%Z by (apply Z.pow_pos_nonneg; lia); lia). rewrite F. reflexivity.
Qed.
Lemma decimal_inf m w D s : (D <= 22)%nat -> (1 <= w)%Z ->
  decimal_from_f64 m w D (Inf s) = if (w <? 64)%Z then Err IntegerConversion else Ok (if s then - 2 ^ 63 else 2 ^ 63 - 1)%Z.
Proof.
  intros HD Hw. unfold decimal_from_f64. destruct (ten_exact D HD) as (t & -> & Ht). unfold mul64; cbn [fmul]; fold round64.
  pose proof (ten_pos D) as T. rewrite <- Ht in T.
  destruct (Qeq_bool t 0) eqn:E; [apply Qeq_bool_iff in E; lra|]. assert (N : negative t = false) by (unfold negative; assert (Hl : Qle_bool 0 t = true) by (apply Qle_bool_iff; lra); rewrite Hl; reflexivity).
  rewrite N, xorb_false_r. cbn [round]. rewrite same_scale.
  assert (F : fits w (as_i64 (Inf s)) = negb (w <? 64)%Z).
  { destruct (Z.ltb_spec w 64) as [L|L]; cbn [negb].
    - assert (2 ^ (w - 1) <= 2 ^ 62)%Z by (apply Z.pow_le_mono_r; lia). destruct (fits w _) eqn:F; [|reflexivity]. apply fits_iff in F. destruct s; cbn [as_i64] in F; lia.
    - assert (2 ^ 63 <= 2 ^ (w - 1))%Z by (apply Z.pow_le_mono_r; lia). apply fits_iff. destruct s; cbn [as_i64]; lia. }
  rewrite F. destruct (w <? 64)%Z; [reflexivity|]. destruct s; reflexivity.
Qed.
Lemma wide_refuted : ~ (forall m w D x z, (D <= 22)%nat -> representable x -> units D x == inject_Z z -> fits w z = true ->
  decimal_from_f64 m w D (Fin x) = Ok z).
Proof.
  intros H. specialize (H Refuse 128%Z 10%nat (10000000000 # 1) (10 ^ 20)%Z).
  assert (A : decimal_from_f64 Refuse 128 10 (Fin (10000000000 # 1)) = Ok (2 ^ 63 - 1)%Z) by (vm_compute; reflexivity).
  rewrite A in H. assert (E : Ok (2 ^ 63 - 1)%Z = @Ok conversion_error Z (10 ^ 20)%Z); [|discriminate E].
  apply H; [lia | exists 10000000000%Z, 0%Z; repeat split; lia | reflexivity | reflexivity].
Qed.

