(** Positions that are due for liquidation; closing a position at the current quote. *)
From Coq Require Import Permutation.
From Verif Require Import ProofBase BookLemmas StepLemmas FillLemmas OpLemmas Inv Spec SpecBook SpecConfig SpecMarket SpecEntry SpecFlow
  BookProof OrderProof SoundProof MarketProof LiqProof TradeFacts PnlCor Scenario ScenarioPanic ScenarioHealth TotalProof PanicFacts MarketFacts.

Lemma due_same c p p' bid ask :
  pos_ok p -> pos_ok p' -> position_quantity p' = position_quantity p -> position_entry_price p' = position_entry_price p ->
  due c p' bid ask <-> due c p bid ask.
Proof.
  intros H H' Hq He. destruct p as [|i|i], p' as [|j|j]; cbn in *; try lia; try tauto; rewrite He; tauto.
Qed.

Lemma no_reports s ru book : reports s ru book = [] -> forall c, caused c ru book = [].
Proof.
  intros H c. unfold reports, caused in *. induction book as [|o book IH]; [reflexivity|]. cbn [flat_map] in *.
  destruct (touched ru o); [discriminate|]. cbn [app] in *. auto.
Qed.

Lemma reach_step c e o e' r : reachable c e -> step c e o = Done (e', r) -> reachable c e'.
Proof.
  intros (ops & outs & e0 & Hi & Hr) Hs. exists (ops ++ [o]), (outs ++ [r]), e0. split; [exact Hi|].
  apply run_app. exists e, outs, [r]. split; [exact Hr|]. split; [apply run_single; eauto | reflexivity].
Qed.

Lemma quiet_healthy c e ru e' :
  valid_config c -> reachable c e -> step c e (OpUpdate ru) = Done (e', Ok (OutUpdates [])) ->
  ~ due c (ex_pos e') (ms_bid (ex_ms e')) (ms_ask (ex_ms e')).
Proof.
  intros V R H. destruct (liquidation_exact _ _ _ _ _ V R H) as [D _].
  assert (N : ~ due_after c e ru) by (intros X; destruct (D X) as [E _]; discriminate).
  destruct (update_exact _ _ _ _ _ V R H) as (E & _ & S & _). symmetry in E. rewrite (no_reports _ _ _ E) in S. cbn [fold_left] in S.
  pose proof (reachable_inv _ _ (vc_max _ V) R) as I. pose proof (reachable_inv _ _ (vc_max _ V) (reach_step _ _ _ _ _ R H)) as I'.
  destruct (step_market _ _ _ _ _ (vc_max _ V) I H) as (B & A & _). rewrite B, A.
  unfold statement_of in S. injection S as S1 S2 _ _ _. unfold due_after in N.
  rewrite (due_same c (ex_pos e) (ex_pos e')); [exact N | apply (inv_pos _ _ I) | apply (inv_pos _ _ I') | exact S1 | exact S2].
Qed.

Lemma opened_due c e sd q uid e' f :
  valid_config c -> reachable c e -> ex_pos e = Neutral -> step c e (OpMarket sd q uid) = Done (e', Ok (OutMarket f)) ->
  let bid := ms_bid (ex_ms e') in let ask := ms_ask (ex_ms e') in
  due c (ex_pos e') bid ask <->
  match sd with
  | Buy => (bid + 1) * c_scale c <= ask * (c_scale c - ct_mm (c_spec c))
  | Sell => bid * (c_scale c + ct_mm (c_spec c)) < ask * c_scale c
  end.
Proof.
  intros V R P H. destruct (market_filled _ _ _ _ _ _ _ V R H) as (_ & Hp & Q & S & _ & _ & M & _).
  pose proof (reachable_inv _ _ (vc_max _ V) (reach_step _ _ _ _ _ R H)) as I'. pose proof (inv_pos _ _ I') as O.
  assert (Hq : 0 < q). { cbn [step] in H. unfold market_new in H. destruct (Z.leb_spec q 0); [discriminate|lia]. }
  unfold statement_of, apply_fill in S. rewrite P in S. cbn [position_quantity l_qty] in S. rewrite Z.eqb_refl in S. injection S as S1 S2 _ _ _.
  unfold signed_qty in S1. cbn [f_side f_qty f_price] in S1, S2. rewrite M. cbv zeta.
  destruct (ex_pos e') as [|i|i]; destruct sd; cbn in *; try lia; rewrite S2; reflexivity.
Qed.

Lemma fill_unhealthy dbg : exists e outs e' o,
  valid_config (L dbg) /\ history (L dbg) crash_ops e outs /\ good_data (L dbg) crash_candle /\
  step (L dbg) e (OpUpdate crash_candle) = Done (e', Ok (OutUpdates [FullyFilled o])) /\
  due (L dbg) (ex_pos e') (ms_bid (ex_ms e')) (ms_ask (ex_ms e')).
Proof.
  destruct (play (L dbg) crash_ops) as [[e outs]|] eqn:E; [|destruct dbg; vm_compute in E; discriminate].
  exists e, outs. do 2 eexists. split; [apply demo_valid; [cbn; tauto | reflexivity | vm_compute; split; discriminate]|].
  split; [apply play_history; exact E|]. split.
  { eapply good_data_by; [discriminate | vm_compute; repeat split; first [reflexivity | intros; discriminate] | destruct dbg; reflexivity | destruct dbg; vm_compute; reflexivity]. }
  destruct dbg; vm_compute in E; injection E as <- <-; (split; [vm_compute; reflexivity|]; vm_compute; first [reflexivity | intros; discriminate]).
Qed.

Lemma spread_unhealthy dbg : exists e outs e',
  valid_config (L dbg) /\ history (L dbg) wide_ops e outs /\
  step (L dbg) e (quote 40 101 2) = Done (e', Err (ERisk Liquidate)) /\ wealth_of e' + fees_paid e' = c_start (L dbg) - d 61.
Proof.
  destruct (play (L dbg) wide_ops) as [[e outs]|] eqn:E; [|destruct dbg; vm_compute in E; discriminate].
  exists e, outs. eexists. split; [apply demo_valid; [cbn; tauto | reflexivity | vm_compute; split; discriminate]|].
  split; [apply play_history; exact E|].
  destruct dbg; vm_compute in E; injection E as <- <-; (split; vm_compute; reflexivity).
Qed.

Lemma close_realises c e uid e' f :
  valid_config c -> reachable c e ->
  step c e (OpMarket (closing_side (ex_pos e)) (Z.abs (position_quantity (ex_pos e))) uid) = Done (e', Ok (OutMarket f)) ->
  ex_pos e <> Neutral ->
  ex_pos e' = Neutral /\
  wealth_of e' + fees_paid e' = wealth_of e + fees_paid e + open_profit c (ex_pos e) (ms_bid (ex_ms e)) (ms_ask (ex_ms e)) /\
  fees_paid e' - fees_paid e = Z.max 0 (position_outstanding_fees (ex_pos e) + taker_fee c (Z.abs (position_quantity (ex_pos e))) (taker_price e (closing_side (ex_pos e)))).
Proof.
  intros V R H P. destruct (market_filled _ _ _ _ _ _ _ V R H) as (_ & Hp & Q & S & _).
  pose proof (reachable_inv _ _ (vc_max _ V) (reach_step _ _ _ _ _ R H)) as I'. pose proof (inv_pos _ _ I') as O.
  pose proof (inv_pos _ _ (reachable_inv _ _ (vc_max _ V) R)) as O0.
  assert (Z0 : position_quantity (ex_pos e') = 0).
  { rewrite Q. unfold closing_side. destruct (ex_pos e); cbn [position_quantity signed_by] in *; cbn in O0; lia. }
  split. { destruct (ex_pos e'); cbn in *; try lia. reflexivity. }
  unfold statement_of, apply_fill in S. cbn [l_qty l_entry l_due l_cash l_paid] in S.
  assert (D : position_quantity (ex_pos e) <> 0) by (destruct (ex_pos e); cbn in *; [contradiction|lia|lia]).
  destruct (Z.eqb_spec (position_quantity (ex_pos e)) 0) as [|_]; [contradiction|].
  unfold signed_qty, taker_price, closing_side, taker_fee, fee in *. cbn [f_side f_qty f_price f_rate] in *.
  destruct (ex_pos e) as [|i|i]; [contradiction| |]; cbn [position_quantity position_entry_price position_outstanding_fees open_profit] in *; cbn in O0.
  - rewrite (Z.abs_eq (pi_qty i)) in * by lia.
    destruct (Z.eqb_spec (Z.sgn (pi_qty i)) (Z.sgn (- pi_qty i))) as [E|_]; [lia|]. injection S as S1 S2 S3 S4 S5.
    rewrite Z.min_id in S4. assert (Z.sgn (pi_qty i) = 1) as Hs by lia. rewrite Hs in S4. split; lia.
  - rewrite Z.abs_opp, (Z.abs_eq (pi_qty i)) in * by lia.
    destruct (Z.eqb_spec (Z.sgn (- pi_qty i)) (Z.sgn (pi_qty i))) as [E|_]; [lia|]. injection S as S1 S2 S3 S4 S5.
    rewrite Z.min_id in S4. assert (Z.sgn (- pi_qty i) = -1) as Hs by lia. rewrite Hs in S4. split; lia.
Qed.
