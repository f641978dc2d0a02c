(** Money from rounding, without end. *)
From Verif Require Import ProofBase Inv Position MarketUpdate Exchange Spec SpecConfig SpecRules SpecMarket SpecFlow SpecMachine
  Scenario ScenarioPanic OrderProof HealthProof TotalProof TradeFacts MachineProof SpecStill ScenarioStill.

Definition state (q entry held w n : Z) : machine :=
  {| m_book := {| l_qty := q; l_entry := entry; l_due := 0; l_cash := w; l_paid := 0 |}; m_held := held; m_reserved := 0; m_orders := [];
     m_bid := 6; m_ask := 7; m_time := 1; m_next := n |}.

Lemma pump_call dbg e q entry held w n sd x : 
  reachable (T dbg) e -> machine_of e = state q entry held w n -> 0 < x -> 100 <= w -> 0 <= held <= 20 ->
  (q = 0 /\ sd = Buy \/ 0 < q /\ (sd = Buy \/ sd = Sell /\ x = q)) -> 0 < margin_at (T dbg) x 7 <= 20 -> 
  (sd = Sell -> 0 < margin_at (T dbg) x entry /\ held = margin_at (T dbg) x entry) ->
  exists e' f, step (T dbg) e (OpMarket sd x 1) = Done (e', Ok (OutMarket f)) /\ reachable (T dbg) e' /\
    machine_of e' = with_id (m_fill (T dbg) (state q entry held w n) (taken (T dbg) (state q entry held w n) sd x)).
Proof.
  intros R M Hx Hw Hh Hq Hm Hs.
  pose proof (f_equal (fun m => l_qty (m_book m)) M) as Mq. pose proof (f_equal (fun m => l_entry (m_book m)) M) as Me. pose proof (f_equal (fun m => l_cash (m_book m)) M) as Mw.
  pose proof (f_equal m_held M) as Mh. pose proof (f_equal m_reserved M) as Mr. pose proof (f_equal m_bid M) as Mb. pose proof (f_equal m_ask M) as Ma.
  cbn [machine_of state m_book l_qty l_entry l_cash m_held m_reserved m_bid m_ask statement_of] in *.
  unfold statement_of in Mq, Me, Mw. cbn [l_qty l_entry l_cash] in Mq, Me, Mw. unfold wealth_of in Mw. rewrite Mh, Mr in Mw.
  assert (V : valid_config (T dbg)) by apply tiny_valid.
  assert (F : exists e' f, step (T dbg) e (OpMarket sd x 1) = Done (e', Ok (OutMarket f))).
  { apply (market_exact (T dbg) e sd x 1 V R). split; [exact Hx|]. split.
    { unfold quantity_allowed. split; [lia|]. split; [intros (y & H & _); discriminate|]. split; [intros (y & H & _); discriminate|]. exists x. cbn. lia. }
    assert (TP : taker_price e sd = match sd with Buy => 7 | Sell => 6 end) by (unfold taker_price; destruct sd; assumption).
    split; [rewrite TP; destruct sd; lia|]. rewrite TP. unfold funded, bookable.
    change (ub_wallet (balances e)) with (wallet_of e). change (pm_of e) with (position_margin_of e).
    assert (FE : forall y p, Z.quot (value (c_kind (T dbg)) (c_scale (T dbg)) y p * ct_taker (c_spec (T dbg))) (c_scale (T dbg)) = 0) by (intros; cbn [T tiny c_spec ct_taker]; rewrite Z.mul_0_r; reflexivity).
    pose proof (inv_pos _ _ (reachable_inv _ _ (vc_max _ V) R)) as Hpo.
    destruct (ex_pos e) as [|i|i]; cbn [position_quantity position_entry_price same_side] in *; cbn in Hpo.
    - destruct Hq as [[-> ->]|[Hq _]]; [|lia]. cbn [same_side]. split; [rewrite FE; lia | lia].
    - destruct Hq as [[Hq _]|[Hq [->|[-> ->]]]]; [lia| |].
      + cbn [same_side]. split; [rewrite FE; lia | lia].
      + cbn [same_side]. subst q entry. rewrite Z.abs_eq by lia. rewrite Z.compare_refl. split; [left; lia|]. destruct (Hs eq_refl) as [Hs1 Hs2]. split; [exact Hs1|]. intros _. rewrite Mh. exact Hs2.
    - lia. }
  destruct F as (e' & f & F). exists e', f. split; [exact F|]. split; [exact (reach_step _ _ _ _ _ R F)|].
  pose proof (machine_step _ _ _ _ _ V R F) as S. rewrite M in S. cbn [m_call] in S. unfold m_market in S. pose proof (f_equal fst S) as S1. pose proof (f_equal snd S) as S2. clear S.
  destruct (Z.leb_spec x 0); [lia|]. destruct (quantity_fault _ _); [discriminate|]. destruct (m_funded _ _ _ _); [|discriminate]. symmetry. exact S1.
Qed.
Ltac side := first [ lia | left; split; reflexivity | right; split; [lia | left; reflexivity] | right; split; [lia | right; split; reflexivity] | discriminate | vm_compute; split; [reflexivity | discriminate] | intros _; vm_compute; auto ].
Lemma pump_round dbg e w n : reachable (T dbg) e -> machine_of e = state 0 0 0 w n -> 100 <= w ->
  exists e' outs, run (T dbg) e pieces = Done (e', outs) /\ reachable (T dbg) e' /\ machine_of e' = state 0 0 0 (w + 1) (n + 5).
Proof.
  intros R M W. 
  destruct (pump_call dbg e 0 0 0 w n Buy 4 R M) as (e1 & f1 & H1 & R1 & M1); [side .. |].
  assert (N1 : machine_of e1 = state 4 7 2 w (n + 1)) by (rewrite M1; reflexivity). clear M1.
  destruct (pump_call dbg e1 4 7 2 w (n + 1) Buy 4 R1 N1) as (e2 & f2 & H2 & R2 & M2); [side .. |].
  assert (N2 : machine_of e2 = state 8 5 4 w (n + 1 + 1)) by (rewrite M2; reflexivity). clear M2.
  destruct (pump_call dbg e2 8 5 4 w (n + 1 + 1) Buy 4 R2 N2) as (e3 & f3 & H3 & R3 & M3); [side .. |].
  assert (N3 : machine_of e3 = state 12 5 6 w (n + 1 + 1 + 1)) by (rewrite M3; reflexivity). clear M3.
  destruct (pump_call dbg e3 12 5 6 w (n + 1 + 1 + 1) Buy 4 R3 N3) as (e4 & f4 & H4 & R4 & M4); [side .. |].
  assert (N4 : machine_of e4 = state 16 5 8 w (n + 1 + 1 + 1 + 1)) by (rewrite M4; reflexivity). clear M4.
  destruct (pump_call dbg e4 16 5 8 w (n + 1 + 1 + 1 + 1) Sell 16 R4 N4) as (e5 & f5 & H5 & R5 & M5); [side .. |].
  exists e5. eexists. split; [unfold pieces; cbn [run]; rewrite H1; cbn [bind]; rewrite H2; cbn [bind]; rewrite H3; cbn [bind]; rewrite H4; cbn [bind]; rewrite H5; reflexivity|].
  split; [exact R5|]. rewrite M5. unfold with_id, m_fill, state, taken, apply_fill, margin_after. cbn [m_book m_held m_reserved m_orders m_bid m_ask m_time m_next l_qty].
  f_equal; [|lia]. cbn. f_equal; lia.
Qed.
Lemma pump_rounds dbg k : forall e w n, reachable (T dbg) e -> machine_of e = state 0 0 0 w n -> 100 <= w ->
  exists e' outs, run (T dbg) e (concat (repeat pieces k)) = Done (e', outs) /\ reachable (T dbg) e' /\ machine_of e' = state 0 0 0 (w + Z.of_nat k) (n + 5 * Z.of_nat k).
Proof.
  induction k as [|k IH]; intros e w n R M W.
  - exists e, []. split; [reflexivity|]. split; [exact R|]. rewrite M. f_equal; lia.
  - destruct (pump_round dbg e w n R M W) as (e1 & o1 & H1 & R1 & M1). destruct (IH e1 _ _ R1 M1 ltac:(lia)) as (e2 & o2 & H2 & R2 & M2).
    exists e2, (o1 ++ o2). split; [cbn [repeat concat]; apply run_app; exists e1, o1, o2; auto|]. split; [exact R2|]. rewrite M2. f_equal; lia.
Qed.
Lemma pump_forever dbg n : exists e outs, valid_config (T dbg) /\ history (T dbg) (rounds n) e outs /\
  ms_bid (ex_ms e) = 6 /\ ms_ask (ex_ms e) = 7 /\ ex_pos e = Neutral /\ ex_active e = [] /\ wallet_of e = c_start (T dbg) + Z.of_nat n.
Proof.
  destruct (play (T dbg) [raw_quote 6 7 1]) as [[e0 o0]|] eqn:E; [|destruct dbg; vm_compute in E; discriminate].
  pose proof (play_history _ _ _ _ E) as (i & Hi & Hr).
  assert (R0 : reachable (T dbg) e0) by (exists [raw_quote 6 7 1], o0; exists i; auto).
  assert (M0 : machine_of e0 = state 0 0 0 1000 0) by (destruct dbg; vm_compute in E; injection E as <- <-; reflexivity).
  destruct (pump_rounds dbg n e0 1000 0 R0 M0 ltac:(lia)) as (e & outs & H & R & M).
  exists e, (o0 ++ outs). split; [apply tiny_valid|]. split.
  { exists i. split; [exact Hi|]. change (rounds n) with ([raw_quote 6 7 1] ++ concat (repeat pieces n)). apply run_app. exists e0, o0, outs. auto. }
  pose proof (f_equal m_bid M) as Mb. pose proof (f_equal m_ask M) as Ma. pose proof (f_equal m_orders M) as Mo. pose proof (f_equal (fun m => l_qty (m_book m)) M) as Mq.
  pose proof (f_equal (fun m => l_cash (m_book m)) M) as Mw. pose proof (f_equal m_held M) as Mh. pose proof (f_equal m_reserved M) as Mr.
  cbn [machine_of state m_book l_qty l_cash m_held m_reserved m_bid m_ask m_orders] in *. unfold statement_of in *. cbn [l_qty l_cash] in *. unfold wealth_of in Mw.
  pose proof (inv_pos _ _ (reachable_inv _ _ (vc_max _ (tiny_valid Linear dbg)) R)) as Hpo.
  split; [exact Mb|]. split; [exact Ma|]. split; [destruct (ex_pos e); cbn in *; [reflexivity|lia|lia]|]. split; [exact Mo|]. cbn [T tiny c_start]. lia.
Qed.
Definition one_cfg (dbg : bool) : config := demo_cfg Linear dbg.
Lemma fees_avoided dbg : exists e1 o1 e2 o2, valid_config (one_cfg dbg) /\ history (one_cfg dbg) in_one e1 o1 /\ history (one_cfg dbg) in_ten e2 o2 /\
  ex_pos e1 = Neutral /\ ex_pos e2 = Neutral /\ gross e1 = gross e2 /\ fees_paid e1 = 18 /\ fees_paid e2 = 12.
Proof.
  destruct (play (one_cfg dbg) in_one) as [[e1 o1]|] eqn:E1; [|destruct dbg; vm_compute in E1; discriminate].
  destruct (play (one_cfg dbg) in_ten) as [[e2 o2]|] eqn:E2; [|destruct dbg; vm_compute in E2; discriminate].
  exists e1, o1, e2, o2. split; [apply demo_valid; [cbn; tauto | reflexivity | vm_compute; split; discriminate]|].
  split; [apply play_history; exact E1|]. split; [apply play_history; exact E2|].
  destruct dbg; vm_compute in E1, E2; injection E1 as <- <-; injection E2 as <- <-; vm_compute; repeat split.
Qed.
