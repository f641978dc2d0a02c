(** Statements about positions, assembled for the properties. *)
From Verif Require Import ProofBase BookLemmas StepLemmas FillLemmas OpLemmas Inv Spec SpecBook SpecRules SpecMargin SpecConfig SpecMarket SpecPanic SpecFlow SpecEntry
  Scenario ScenarioPanic ScenarioEntry LedgerProof FeeProof CoreProof FlowProof OrderProof SoundProof MarketProof LiqProof TotalProof FlowCor PnlCor PanicFacts TradeFacts.

Lemma entry_nonneg c e : valid_config c -> reachable c e -> 0 <= position_entry_price (ex_pos e).
Proof.
  intros V R. pose proof (vc_scale _ V) as Hs.
  refine (reachable_core c (fun _ pos => 0 <= position_entry_price pos) _ _ (vc_max _ V) _ e R).
  - intros acc q p sd rate pos pos' acc' Hq Hp _ Hok Hcp H.
    destruct Hcp; rewrite ?mk_pos_ok in Hok; destruct sd; cbn in *; try lia;
    unfold weighted, dmul; apply (average_nonneg (c_scale c) (pi_entry i) (pi_qty i) p q); lia.
  - intros; split; assumption.
  - intros e0 Hi. apply init_fields in Hi as (_ & _ & _ & _ & -> & _). cbn. lia.
Qed.

(** ** C22 *)
Lemma covered_linear c e bid ask :
  valid_config c -> c_kind c = Linear -> reachable c e -> 0 <= ask -> ~ due c (ex_pos e) bid ask ->
  let loss := - open_profit c (ex_pos e) bid ask in
  (loss - initial_margin c (ex_pos e) - 2) * c_scale c < Z.abs (position_quantity (ex_pos e)) /\
  ((c_scale c | position_entry_price (ex_pos e) * (c_scale c - ct_mm (c_spec c))) -> loss <= initial_margin c (ex_pos e) + 2).
Proof.
  intros V Hk R Ha Hd. pose proof (entry_nonneg _ _ V R) as He. pose proof (inv_pos _ _ (reachable_inv _ _ (vc_max _ V) R)) as Hp.
  split; [apply loss_linear | intros Hx; apply (loss_linear_exact c)]; try assumption; apply V.
Qed.
Lemma covered_inverse c e bid ask :
  valid_config c -> c_kind c = Inverse -> reachable c e -> 0 < bid -> 0 < ask ->
  (ex_pos e <> Neutral -> 0 < position_entry_price (ex_pos e)) ->
  match ex_pos e with
  | Long i => ct_mm (c_spec c) < c_scale c /\
      ct_mm (c_spec c) * (c_scale c + ct_imr (c_spec c)) <= ct_imr (c_spec c) * c_scale c /\
      (c_scale c | pi_entry i * (c_scale c - ct_mm (c_spec c)))
  | _ => True
  end ->
  ~ due c (ex_pos e) bid ask -> - open_profit c (ex_pos e) bid ask <= initial_margin c (ex_pos e) + 2.
Proof.
  intros V Hk R Hb Ha He Hx Hd. pose proof (inv_pos _ _ (reachable_inv _ _ (vc_max _ V) R)) as Hp.
  apply loss_inverse; try assumption; apply V.
Qed.
Lemma heavy_valid dbg : valid_config (heavy dbg).
Proof. constructor; try discriminate; try reflexivity; vm_compute; split; discriminate. Qed.
Lemma uncovered dbg : exists e outs,
  valid_config (heavy dbg) /\ history (heavy dbg) heavy_ops e outs /\
  ~ due (heavy dbg) (ex_pos e) (ms_bid (ex_ms e)) (ms_ask (ex_ms e)) /\
  initial_margin (heavy dbg) (ex_pos e) = d 1 /\ position_margin_of e = d 1 /\
  open_profit (heavy dbg) (ex_pos e) (ms_bid (ex_ms e)) (ms_ask (ex_ms e)) = - d 4.
Proof.
  destruct (play (heavy dbg) heavy_ops) as [[e outs]|] eqn:E; [|destruct dbg; vm_compute in E; discriminate].
  exists e, outs. split; [apply heavy_valid|]. split; [apply play_history; exact E|].
  destruct dbg; vm_compute in E; injection E as <- <-; (split; [intros H; vm_compute in H; apply H; reflexivity|]); vm_compute; repeat split.
Qed.

(** ** C26 *)
Lemma added_entry c l f :
  l_qty l <> 0 -> Z.sgn (l_qty l) = Z.sgn (signed_qty f) ->
  l_entry (ledger_next c l f) = average (c_scale c) (l_entry l) (Z.abs (l_qty l)) (f_price f) (f_qty f) /\
  l_qty (ledger_next c l f) = l_qty l + signed_qty f.
Proof.
  intros H1 H2. unfold ledger_next, apply_fill. destruct (Z.eqb_spec (l_qty l) 0); [contradiction|].
  destruct (Z.eqb_spec (Z.sgn (l_qty l)) (Z.sgn (signed_qty f))); [|contradiction]. split; reflexivity.
Qed.
Lemma entry_between c l f :
  0 < c_scale c -> l_qty l <> 0 -> Z.sgn (l_qty l) = Z.sgn (signed_qty f) -> 0 < l_entry l -> 0 < f_qty f -> 0 < f_price f ->
  let s := c_scale c in let w := Z.abs (l_qty l) + f_qty f in
  let a := l_entry (ledger_next c l f) in let cost := l_entry l * Z.abs (l_qty l) + f_price f * f_qty f in
  a <= Z.max (l_entry l) (f_price f) /\ Z.min (l_entry l) (f_price f) * w <= a * w + w + 2 * s /\
  a * w <= cost <= a * w + w + 2 * s /\
  ((s | l_entry l * Z.abs (l_qty l)) -> (s | f_price f * f_qty f) ->
     Z.min (l_entry l) (f_price f) <= a /\ ((w | cost) -> a * w = cost)).
Proof.
  intros Hs Hq Hsg He Hf Hp. cbv zeta. rewrite (proj1 (added_entry c l f Hq Hsg)).
  destruct (average_between (c_scale c) (l_entry l) (Z.abs (l_qty l)) (f_price f) (f_qty f) Hs He Hp ltac:(lia) Hf) as (A & B & C & D & E).
  repeat split; try assumption; try apply C; auto.
Qed.
Lemma market_adds c e sd q uid e' f :
  valid_config c -> reachable c e -> step c e (OpMarket sd q uid) = Done (e', Ok (OutMarket f)) ->
  same_side sd (ex_pos e) = true -> ex_pos e <> Neutral ->
  position_entry_price (ex_pos e') =
  average (c_scale c) (position_entry_price (ex_pos e)) (Z.abs (position_quantity (ex_pos e))) (taker_price e sd) q.
Proof.
  intros V R H Hs Hn. destruct (market_filled _ _ _ _ _ _ _ V R H) as (_ & _ & _ & Hst & _).
  pose proof (inv_pos _ _ (reachable_inv _ _ (vc_max _ V) R)) as Hp. destruct (market_step _ _ _ _ _ _ _ H) as [_ M]. pose proof (me_qty _ _ _ _ M) as Hq. cbn in Hq.
  change (position_entry_price (ex_pos e')) with (l_entry (statement_of e')). rewrite Hst.
  refine (proj1 (added_entry c (statement_of e) {| f_side := sd; f_qty := q; f_price := taker_price e sd; f_rate := ct_taker (c_spec c) |} _ _));
  cbn [statement_of l_qty]; unfold signed_qty; cbn [f_side f_qty]; destruct (ex_pos e), sd; try discriminate; try contradiction; cbn in *; lia.
Qed.

(** Both fills at 0.5, the entry price is 0.3. *)
Lemma entry_below dbg : exists e outs,
  valid_config (T dbg) /\ history (T dbg) truncated_ops e outs /\
  map f_price (reported_fills (T dbg) truncated_ops outs) = [5; 5] /\ position_entry_price (ex_pos e) = 3 /\
  position_margin_of e = 2 /\ initial_margin (T dbg) (ex_pos e) = 1.
Proof.
  destruct (play (T dbg) truncated_ops) as [[e outs]|] eqn:E; [|destruct dbg; vm_compute in E; discriminate].
  exists e, outs. split; [apply tiny_valid|]. split; [apply play_history; exact E|].
  destruct dbg; vm_compute in E; injection E as <- <-; vm_compute; repeat split.
Qed.
Definition inverse (dbg : bool) : config := demo_cfg Inverse dbg.
(** 100 contracts at 100 and 100 at 200 cost 1 and 0.5, but the position says 1.3333. *)
Lemma inverse_cost dbg : exists e outs,
  valid_config (inverse dbg) /\ history (inverse dbg) mixed_ops e outs /\
  map (fun f => value Inverse S4 (f_qty f) (f_price f)) (reported_fills (inverse dbg) mixed_ops outs) = [d 1; 5000] /\
  position_entry_price (ex_pos e) = d 150 /\ position_total_cost (inverse dbg) (ex_pos e) = Done 13333 /\
  position_margin_of e = 15000 /\ initial_margin (inverse dbg) (ex_pos e) = 13333.
Proof.
  destruct (play (inverse dbg) mixed_ops) as [[e outs]|] eqn:E; [|destruct dbg; vm_compute in E; discriminate].
  exists e, outs. split; [apply demo_valid; [cbn; tauto | reflexivity | vm_compute; split; discriminate]|]. split; [apply play_history; exact E|].
  destruct dbg; vm_compute in E; injection E as <- <-; vm_compute; repeat split.
Qed.

(** ** C27 *)
Lemma flat_debug c e : valid_config c -> reachable c e -> c_dbg c = true -> ex_pos e = Neutral -> position_margin_of e = 0.
Proof. intros V R Hd Hn. exact (so_flat _ _ (reachable_sound _ _ V R) Hd Hn). Qed.
Definition closed_ops : list op := truncated_ops ++ [OpMarket Sell 6 3].
Lemma flat_margin : exists e outs,
  valid_config (T false) /\ history (T false) closed_ops e outs /\ ex_pos e = Neutral /\ ex_active e = [] /\ position_margin_of e = 1.
Proof.
  destruct (play (T false) closed_ops) as [[e outs]|] eqn:E; [|vm_compute in E; discriminate].
  exists e, outs. split; [apply tiny_valid|]. split; [apply play_history; exact E|]. vm_compute in E; injection E as <- <-. vm_compute. repeat split.
Qed.
Lemma exact_case : exists e outs,
  valid_config (L true) /\ no_check falling_ops /\ history (L true) falling_ops e outs /\
  exact_fills (L true) (ledger_start (c_start (L true))) (reported_fills (L true) falling_ops outs) /\ position_margin_of e = d 909.
Proof.
  destruct (play (L true) falling_ops) as [[e outs]|] eqn:E; [|vm_compute in E; discriminate].
  exists e, outs. split; [apply demo_valid; [cbn; tauto | reflexivity | vm_compute; split; discriminate]|].
  split; [intros o H; repeat (destruct H as [<-|H]; [reflexivity|]); destruct H|].
  split; [apply play_history; exact E|]. vm_compute in E; injection E as <- <-.
  split; [|vm_compute; reflexivity].
  match goal with |- exact_fills _ _ ?l => let l' := eval vm_compute in l in change l with l' end.
  cbn [exact_fills]. split; [|exact Logic.I]. unfold exact_fill. cbn [ledger_start l_qty]. cbn [Z.eqb f_qty f_price].
  split; [exists 9090000 | exists 9090000]; vm_compute; reflexivity.
Qed.

(** ** C36 at the exchange *)
Lemma unrealised_at_quote c e :
  c_kind c = Linear \/ (position_entry_price (ex_pos e) <> 0 /\ ms_bid (ex_ms e) <> 0 /\ ms_ask (ex_ms e) <> 0) ->
  position_unrealized_pnl c (ex_pos e) (ms_bid (ex_ms e)) (ms_ask (ex_ms e)) =
  Done (match ex_pos e with
        | Neutral => 0
        | Long i => gain (c_kind c) (c_scale c) (pi_qty i) (pi_entry i) (ms_bid (ex_ms e))
        | Short i => - gain (c_kind c) (c_scale c) (pi_qty i) (pi_entry i) (ms_ask (ex_ms e))
        end).
Proof. apply open_profit_reported. Qed.

(** ** C44 *)
Definition long_trip : list op := [quote 99 100 1; OpMarket Buy (d 1) 1; quote 110 111 2; OpMarket Sell (d 1) 2].
Definition short_trip : list op := [quote 100 101 1; OpMarket Sell (d 1) 1; quote 109 110 2; OpMarket Buy (d 1) 2].
Lemma mirror_case : exists e outs, history (L true) long_trip e outs /\
  exists e' outs', history (L true) short_trip e' outs' /\
  reported_fills (L true) short_trip outs' = map mirror (reported_fills (L true) long_trip outs) /\
  wealth_of e + fees_paid e - c_start (L true) = d 10 /\ wealth_of e' + fees_paid e' - c_start (L true) = - d 10.
Proof. played (L true) long_trip. played (L true) short_trip. vm_compute. repeat split. Qed.
Lemma covered_case : exists e outs, history (L true) falling_ops e outs /\
  ~ due (L true) (ex_pos e) (ms_bid (ex_ms e)) (ms_ask (ex_ms e)) /\
  open_profit (L true) (ex_pos e) (ms_bid (ex_ms e)) (ms_ask (ex_ms e)) = - d 369 /\ initial_margin (L true) (ex_pos e) = d 909.
Proof. played (L true) falling_ops. split; [intros H; vm_compute in H; apply H; reflexivity|]. split; vm_compute; reflexivity. Qed.
Definition added_ops : list op := [quote 99 100 1; OpMarket Buy (d 2) 1; quote 109 110 2].
Lemma added_case : exists e outs, history (L true) added_ops e outs /\ same_side Buy (ex_pos e) = true /\
  exists e' f, step (L true) e (OpMarket Buy (d 2) 2) = Done (e', Ok (OutMarket f)) /\ position_entry_price (ex_pos e') = d 105.
Proof. played (L true) added_ops. split; [reflexivity|]. do 2 eexists. split; vm_compute; reflexivity. Qed.
