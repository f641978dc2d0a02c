(** Corollaries and witnesses for the equity properties. *)
From Verif Require Import ProofBase StepLemmas Inv Spec SpecConfig SpecMarket SpecFlow SpecEquity LedgerProof FeeProof FlowCor LedgerCor EquityProof Scenario ScenarioEquity.

Lemma equity_bounded c ops e outs m :
  c_kind c = Linear -> 0 < c_scale c -> 0 <= c_max c <= 10000 -> no_check ops -> history c ops e outs ->
  Forall (no_edge m) (reported_fills c ops outs) ->
  let fs := reported_fills c ops outs in
  shown_equity c m e <= c_scale c * c_start c + rounding (c_scale c) 0 fs /\
  (even_fills (c_scale c) (ledger_start (c_start c)) fs -> shown_equity c m e <= c_scale c * c_start c).
Proof.
  intros Hk Hs Hm Hck H HE fs. destruct (equity_marked c ops e outs m Hk Hs Hm Hck H) as [A B].
  pose proof (marked_no_edge m _ (fill_pos_filled _ (reported_pos _ _ _ _ Hm Hck H)) HE) as M. cbv zeta in A, B. fold fs in A, B, M.
  split; [lia|]. intros X. rewrite (B X). lia.
Qed.

Lemma pump dbg : exists e outs,
  history (tiny Linear dbg) pump_ops e outs /\ no_check pump_ops /\
  (forall r, In (OpUpdate r) pump_ops -> quote_of r = Some (18, 19)) /\
  ex_pos e = Neutral /\ Forall (no_edge 18) (reported_fills (tiny Linear dbg) pump_ops outs) /\
  wealth_of e = c_start (tiny Linear dbg) + 100.
Proof.
  assert (N : no_check pump_ops) by (intros o Ho; vm_compute in Ho; repeat (destruct Ho as [<-|Ho]; [reflexivity|]); destruct Ho).
  destruct (play (tiny Linear dbg) pump_ops) as [[e outs]|] eqn:E; [|destruct dbg; vm_compute in E; discriminate].
  exists e, outs. split; [apply play_history; exact E|]. split; [exact N|].
  split. { intros r Hr. vm_compute in Hr. repeat (destruct Hr as [Hr|Hr]; [first [discriminate Hr|injection Hr as <-; reflexivity]|]). destruct Hr. }
  assert (X : match play (tiny Linear dbg) pump_ops with
              | Done (e, outs) => (is_flat e && forallb (no_edge_b 18) (reported_fills (tiny Linear dbg) pump_ops outs) && (wealth_of e =? c_start (tiny Linear dbg) + 100))%bool = true
              | Panic _ => False end) by (destruct dbg; vm_compute; reflexivity).
  rewrite E in X. apply andb_prop in X as [X X3]. apply andb_prop in X as [X1 X2].
  split. { unfold is_flat in X1. destruct (ex_pos e); [reflexivity|discriminate..]. }
  split; [|lia]. rewrite forallb_forall in X2. apply Forall_forall. intros f Hf. specialize (X2 f Hf).
  unfold no_edge_b in X2. unfold no_edge. destruct (f_side f); lia.
Qed.

Lemma inverse_average s p0 w0 p1 w1 a :
  0 < s -> 0 < p0 -> 0 < p1 -> 0 < w0 -> 0 < w1 -> a * (w0 + w1) = p0 * w0 + p1 * w1 ->
  value Inverse s (w0 + w1) a <= value Inverse s w0 p0 + value Inverse s w1 p1 + 1.
Proof.
  intros Hs H0 H1 W0 W1 Ha. unfold value. assert (0 < a) by nia.
  rewrite (Z.quot_div_nonneg ((w0 + w1) * s) a), (Z.quot_div_nonneg (w0 * s) p0), (Z.quot_div_nonneg (w1 * s) p1) by (try apply Z.mul_nonneg_nonneg; lia).
  set (x := w0 * s / p0). set (y := w1 * s / p1).
  pose proof (Z.div_mod (w0 * s) p0 ltac:(lia)) as D0. pose proof (Z.mod_pos_bound (w0 * s) p0 H0) as B0.
  pose proof (Z.div_mod (w1 * s) p1 ltac:(lia)) as D1. pose proof (Z.mod_pos_bound (w1 * s) p1 H1) as B1.
  fold x in D0. fold y in D1.
  assert (K : (w0 + w1) * s < a * (x + y + 2)).
  { assert (Q : (w0 + w1) * s * (p0 * p1) <= a * (w0 * s * p1 + w1 * s * p0)).
    { assert (Q1 : (w0 + w1) * (w0 + w1) * (p0 * p1) <= (p0 * w0 + p1 * w1) * (w0 * p1 + w1 * p0)).
      { assert (0 <= w0 * w1 * ((p0 - p1) * (p0 - p1))) by (apply Z.mul_nonneg_nonneg; [nia|apply Z.square_nonneg]). lia. }
      rewrite <- Ha in Q1. apply Z.mul_le_mono_pos_r with (p := w0 + w1); [lia|].
      replace ((w0 + w1) * s * (p0 * p1) * (w0 + w1)) with (s * ((w0 + w1) * (w0 + w1) * (p0 * p1))) by ring.
      replace (a * (w0 * s * p1 + w1 * s * p0) * (w0 + w1)) with (s * (a * (w0 + w1) * (w0 * p1 + w1 * p0))) by ring.
      apply Z.mul_le_mono_nonneg_l; lia. }
    assert (U0 : w0 * s + 1 <= p0 * (x + 1)) by lia. assert (U1 : w1 * s + 1 <= p1 * (y + 1)) by lia.
    assert (U : w0 * s * p1 + w1 * s * p0 < p0 * p1 * (x + y + 2)) by nia.
    apply Z.mul_lt_mono_pos_r with (p := p0 * p1); [nia|].
    replace (a * (x + y + 2) * (p0 * p1)) with (a * (p0 * p1 * (x + y + 2))) by ring. nia. }
  assert ((w0 + w1) * s / a < x + y + 2); [|lia]. apply Z.div_lt_upper_bound; lia.
Qed.

Lemma inverse_gap :
  (exists e outs,
    history (short_cfg false) short_ops e outs /\ no_check short_ops /\
    map (fun f => (f_side f, f_qty f, f_price f)) (reported_fills (short_cfg false) short_ops outs) =
      [(Sell, d 300, d 300); (Sell, d 300, d 100); (Buy, d 600, d 100)] /\
    ex_pos e = Neutral /\
    value Inverse S4 (d 600) (d 100) - value Inverse S4 (d 300) (d 300) - value Inverse S4 (d 300) (d 100) = d 2 /\
    wealth_of e = c_start (short_cfg false) + d 3) /\
  play (short_cfg true) short_ops = Panic PCloseMarginDebug.
Proof.
  split; [|vm_compute; reflexivity].
  assert (N : no_check short_ops) by (intros o Ho; vm_compute in Ho; repeat (destruct Ho as [<-|Ho]; [reflexivity|]); destruct Ho).
  eexists _, _; split; [apply play_history; vm_compute; reflexivity|]; split; [exact N|]; vm_compute; repeat split.
Qed.

Lemma inverse_add_cost s l f :
  0 < s -> 0 < l_entry l -> 0 < f_price f -> 0 < f_qty f -> l_qty l <> 0 -> Z.sgn (l_qty l) = Z.sgn (signed_qty f) ->
  let l' := apply_fill Inverse s l f in
  l_entry l' * Z.abs (l_qty l') = l_entry l * Z.abs (l_qty l) + f_price f * f_qty f ->
  value Inverse s (Z.abs (l_qty l')) (l_entry l') <=
  value Inverse s (Z.abs (l_qty l)) (l_entry l) + value Inverse s (f_qty f) (f_price f) + 1.
Proof.
  intros Hs H0 Hp Hq Hn Hsg l'. unfold l', apply_fill.
  destruct (Z.eqb_spec (l_qty l) 0); [contradiction|]. rewrite Hsg, Z.eqb_refl. cbn [l_entry l_qty].
  assert (E : Z.abs (l_qty l + signed_qty f) = Z.abs (l_qty l) + f_qty f) by (unfold signed_qty in *; destruct (f_side f); lia).
  rewrite E. intros Ha. apply inverse_average; try lia.
Qed.
