(** Equity of a list of fills. *)
From Verif Require Import ProofBase StepLemmas Inv Spec SpecConfig SpecMarket SpecFlow SpecEquity LedgerProof FeeProof FlowCor LedgerCor.

(** Money and position of a ledger against the outlay for its fills. *)
Definition drift (s : Z) (l : ledger) (outlay : Z) : Z :=
  s * (l_cash l + l_paid l) - l_qty l * l_entry l + outlay.

Lemma value_linear s q p : 0 < s -> 0 <= q -> 0 <= p -> 0 <= q * p - s * value Linear s q p < s.
Proof.
  intros Hs Hq Hp. unfold value. assert (H : 0 <= q * p) by nia. rewrite Z.quot_div_nonneg by lia.
  pose proof (Z.mod_pos_bound (q * p) s Hs). pose proof (Z.div_mod (q * p) s ltac:(lia)). lia.
Qed.
Lemma value_even s q p : 0 < s -> (s | q * p) -> s * value Linear s q p = q * p.
Proof. intros Hs [k Hk]. unfold value. rewrite Hk, Z.quot_mul by lia. lia. Qed.

Lemma drift_step s l f outlay :
  0 < s -> filled_pos f -> ledger_good l ->
  let l' := apply_fill Linear s l f in
  Z.abs (drift s l' (outlay + signed_qty f * f_price f) - drift s l outlay) <= 2 * s + Z.abs (l_qty l') /\
  (even_fill s (l_qty l) (l_entry l) f -> drift s l' (outlay + signed_qty f * f_price f) = drift s l outlay).
Proof.
  intros Hs [Hq Hp] [H1 H2] l'. unfold l', drift, even_fill, apply_fill.
  set (x := signed_qty f). assert (Hx : Z.abs x = f_qty f) by (unfold x, signed_qty; destruct (f_side f); lia).
  set (q := f_qty f) in *. set (p := f_price f) in *.
  destruct (Z.eqb_spec (l_qty l) 0) as [E|E].
  - cbn [l_qty l_entry l_cash l_paid]. rewrite E. split; [|intros _]; lia.
  - destruct (Z.eqb_spec (Z.sgn (l_qty l)) (Z.sgn x)) as [E1|E1]; cbn [l_qty l_entry l_cash l_paid].
    + pose proof (average_bounds s (l_entry l) (Z.abs (l_qty l)) p q Hs H1 ltac:(lia) ltac:(lia) Hq) as A.
      assert (Ex : l_qty l + x = Z.sgn x * (Z.abs (l_qty l) + q)) by lia.
      assert (E2 : l_qty l = Z.sgn x * Z.abs (l_qty l)) by lia. assert (E3 : x = Z.sgn x * q) by lia.
      set (w := Z.abs (l_qty l)) in *. set (a := average s (l_entry l) w p q) in *.
      assert (F : s * (l_cash l + l_paid l) - (l_qty l + x) * a + (outlay + x * p) -
                  (s * (l_cash l + l_paid l) - l_qty l * l_entry l + outlay)
                  = Z.sgn x * (l_entry l * w + p * q - (w + q) * a)).
      { rewrite Ex. rewrite E2 at 1. rewrite E3 at 2. ring. }
      assert (Hw : Z.abs (l_qty l + x) = w + q) by lia.
      split.
      * rewrite F, Hw. rewrite Z.abs_mul. assert (Z.abs (Z.sgn x) = 1) as -> by lia. lia.
      * intros (D1 & D2 & k & D3).
        assert (Ha : (w + q) * a = l_entry l * w + p * q).
        { unfold a. rewrite average_exact; [|lia|rewrite Z.mul_comm; exact D1|rewrite Z.mul_comm; exact D2].
          replace (l_entry l * w + p * q) with (k * (w + q)) by lia. rewrite Z.quot_mul by lia. lia. }
        rewrite Ha in F. replace (l_entry l * w + p * q - (l_entry l * w + p * q)) with 0 in F by ring. lia.
    + set (cl := Z.min (Z.abs (l_qty l)) q). assert (Hc : 0 <= cl) by lia.
      pose proof (value_linear s cl (l_entry l) Hs Hc H1) as V1. pose proof (value_linear s cl p Hs Hc ltac:(lia)) as V2.
      unfold gain. set (g := Z.sgn (l_qty l)) in *.
      assert (Hg : g = 1 /\ 0 < l_qty l \/ g = -1 /\ l_qty l < 0) by lia.
      set (due := Z.max (l_due l + fee Linear s f) 0).
      assert (F : forall en, (l_qty l + x) * en = (if l_qty l + x =? 0 then 0 else if Z.sgn (l_qty l + x) =? g then l_qty l + x else 0) * l_entry l +
                                                   (if l_qty l + x =? 0 then 0 else if Z.sgn (l_qty l + x) =? g then 0 else l_qty l + x) * p ->
         s * (l_cash l + g * (value Linear s cl p - value Linear s cl (l_entry l)) - due + (l_paid l + due)) - (l_qty l + x) * en +
         (outlay + x * p) - (s * (l_cash l + l_paid l) - l_qty l * l_entry l + outlay)
         = g * (cl * l_entry l - s * value Linear s cl (l_entry l) - (cl * p - s * value Linear s cl p))).
      { intros en Hen. rewrite Hen.
        destruct (Z.eqb_spec (l_qty l + x) 0) as [G|G].
        - assert (l_qty l = g * cl) as -> by lia. assert (x = - (g * cl)) as -> by lia. ring.
        - destruct (Z.eqb_spec (Z.sgn (l_qty l + x)) g) as [G1|G1].
          + assert (x = - (g * cl)) as -> by lia. ring.
          + assert (E4 : l_qty l = g * cl) by lia. rewrite E4. ring. }
      match goal with |- Z.abs (s * _ - _ * ?en + _ - _) <= _ /\ _ => specialize (F en) end.
      rewrite F.
      * split.
        -- destruct Hg as [[-> _]|[-> _]]; lia.
        -- intros [D1 D2]. fold cl in D1, D2. pose proof (value_even s cl _ Hs D1). pose proof (value_even s cl _ Hs D2).
           assert (g * (cl * l_entry l - s * value Linear s cl (l_entry l) - (cl * p - s * value Linear s cl p)) = 0) by (destruct Hg as [[-> _]|[-> _]]; lia).
           match goal with |- ?a = ?b => enough (a - b = 0) by lia end. rewrite F; [lia|].
           destruct (Z.eqb_spec (l_qty l + x) 0) as [G|G]; [lia|]. destruct (_ =? _); ring.
      * destruct (Z.eqb_spec (l_qty l + x) 0) as [G|G]; [lia|]. destruct (_ =? _); ring.
Qed.

Definition outlay (fs : list fill) : Z := sumZ (map (fun f => signed_qty f * f_price f) fs).

Lemma drift_all s fs : forall l o,
  0 < s -> Forall filled_pos fs -> ledger_good l ->
  let l' := fold_left (apply_fill Linear s) fs l in
  Z.abs (drift s l' (o + outlay fs) - drift s l o) <= rounding s (l_qty l) fs /\
  (even_fills s l fs -> drift s l' (o + outlay fs) = drift s l o).
Proof.
  induction fs as [|f fs IH]; intros l o Hs HF Hg; cbn [fold_left rounding even_fills]; cbv zeta.
  - unfold outlay. cbn. rewrite Z.add_0_r. split; [lia|reflexivity].
  - inversion HF as [|? ? Hf Hr]; subst.
    destruct (drift_step s l f o Hs Hf Hg) as [A B].
    assert (Hg' : ledger_good (apply_fill Linear s l f)).
    { apply (next_good {| c_kind := Linear; c_scale := s; c_dbg := false; c_start := 0; c_max := 0;
        c_spec := {| ct_imr := 0; ct_mm := 0; ct_pf := {| pf_min := None; pf_max := None; pf_tick := 0; pf_up := 0; pf_down := 0 |};
                     ct_qf := {| qf_min := None; qf_max := None; qf_tick := 0 |}; ct_maker := 0; ct_taker := 0 |}; c_sample_s := 0 |} l f Hs Hf Hg). }
    destruct (IH (apply_fill Linear s l f) (o + signed_qty f * f_price f) Hs Hr Hg') as [A' B'].
    assert (Q : l_qty (apply_fill Linear s l f) = l_qty l + signed_qty f).
    { unfold apply_fill. destruct (Z.eqb_spec (l_qty l) 0); [cbn; lia|]. destruct (_ =? _); reflexivity. }
    assert (O : o + outlay (f :: fs) = o + signed_qty f * f_price f + outlay fs) by (unfold outlay, sumZ; cbn [map fold_right]; lia).
    rewrite O. rewrite Q in A, A'. split; [lia|]. intros [X Y]. rewrite (B' Y), (B X). reflexivity.
Qed.

Lemma marked_outlay m fs : marked_profit m fs = m * net fs - outlay fs.
Proof.
  unfold marked_profit, outlay, net, sumZ. induction fs as [|f fs IH]; cbn [map fold_right]; [lia|]. rewrite IH. ring.
Qed.

Lemma equity_marked c ops e outs m :
  c_kind c = Linear -> 0 < c_scale c -> 0 <= c_max c <= 10000 -> no_check ops -> history c ops e outs ->
  let fs := reported_fills c ops outs in
  Z.abs (shown_equity c m e - (c_scale c * c_start c + marked_profit m fs)) <= rounding (c_scale c) 0 fs /\
  (even_fills (c_scale c) (ledger_start (c_start c)) fs ->
   shown_equity c m e = c_scale c * c_start c + marked_profit m fs).
Proof.
  intros Hk Hs Hm Hck H fs. pose proof (reported_pos _ _ _ _ Hm Hck H) as HF.
  pose proof (follows_ledger _ _ _ _ Hm Hck H) as L. pose proof (position_net _ _ _ _ Hm Hck H) as N. cbv zeta in L.
  fold fs in HF, L, N. unfold ledger_of in L. rewrite Hk in L. destruct L as (L1 & L2 & _ & L4 & L5).
  destruct (drift_all (c_scale c) fs (ledger_start (c_start c)) 0 Hs (fill_pos_filled _ HF) ltac:(split; cbn; lia)) as [A B].
  cbv zeta in A, B.
  set (l := fold_left (apply_fill Linear (c_scale c)) fs (ledger_start (c_start c))) in *.
  assert (E : shown_equity c m e - (c_scale c * c_start c + marked_profit m fs) = drift (c_scale c) l (0 + outlay fs) - drift (c_scale c) (ledger_start (c_start c)) 0).
  { unfold shown_equity. rewrite L4, L5, L2, marked_outlay, <- N, L1. unfold drift. cbn [ledger_start l_cash l_paid l_qty l_entry]. ring. }
  split.
  - rewrite E. exact A.
  - intros X. specialize (B X). lia.
Qed.

Lemma marked_no_edge m fs : Forall filled_pos fs -> Forall (no_edge m) fs -> marked_profit m fs <= 0.
Proof.
  intros HF HE. induction fs as [|f fs IH]; [cbn; lia|]. inversion HF as [|? ? [Hq Hp] HF']; subst. inversion HE as [|? ? He HE']; subst.
  specialize (IH HF' HE'). unfold marked_profit, sumZ in *. cbn [map fold_right] in *.
  assert (signed_qty f * (m - f_price f) <= 0) by (unfold no_edge, signed_qty in *; destruct (f_side f); nia). lia.
Qed.
