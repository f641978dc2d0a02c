(** A market order in parts: from the reference machine back to the exchange. *)
From Verif Require Import ProofBase Types Accounting Position OrderBook OrderMargin MarketUpdate Exchange Spec SpecConfig SpecRules SpecMarket SpecFlow SpecMargin
  SpecView SpecMachine SpecCrash MachineProof CrashProof Inv StepLemmas OrderProof HealthProof LiqProof SpecSlice SliceProof SlicePlay.

Lemma run_parts c e sd uid l ep outs : valid_config c -> reachable c e -> run c e (slices sd uid l) = Done (ep, outs) ->
  m_play c (machine_of e) (slices sd uid l) = Done (machine_of ep, outs).
Proof. intros V R H. rewrite <- (exec_run c _ e V R), H. reflexivity. Qed.
Lemma run_parts_iff c e sd uid l : valid_config c -> reachable c e ->
  ((exists ep outs, run c e (slices sd uid l) = Done (ep, outs) /\ all_ok outs) <->
   exists m outs, m_play c (machine_of e) (slices sd uid l) = Done (m, outs) /\ all_ok outs).
Proof.
  intros V R. split.
  - intros (ep & outs & H & A). exists (machine_of ep), outs. split; [apply run_parts|]; assumption.
  - intros (m & outs & H & A). rewrite <- (exec_run c _ e V R) in H. destruct (run c e _) as [[ep outs']|w] eqn:E; [|discriminate]. cbn [SpecCrash.seen] in H. injection H as _ ->. eauto.
Qed.
Lemma step_whole c e sd q uid ew o : valid_config c -> reachable c e -> step c e (OpMarket sd q uid) = Done (ew, Ok o) ->
  run c e (slices sd uid [q]) = Done (ew, [Ok o]).
Proof. intros V R H. cbn [slices map run]. rewrite H. reflexivity. Qed.
Lemma one_part_ok o : all_ok [Ok o].
Proof. intros r [<-|[]]. eauto. Qed.
Lemma sum_one q : sumZ [q] = q.
Proof. cbn. lia. Qed.

Lemma reach_sane c e : valid_config c -> reachable c e -> 0 <= due_of e -> sane (statement_of e).
Proof.
  intros V R D. pose proof (entry_nonneg c e (vc_scale _ V) (vc_max _ V) R) as E. pose proof (inv_pos _ _ (reachable_inv c e (vc_max _ V) R)) as P.
  unfold sane, statement_of, due_of, entry_ok in *. cbn [l_qty l_entry l_due]. destruct (ex_pos e) as [|i|i]; cbn in *; lia.
Qed.
Lemma adding_of c e sd : valid_config c -> reachable c e -> same_side sd (ex_pos e) = true -> adding sd (machine_of e).
Proof.
  intros V R S. pose proof (inv_pos _ _ (reachable_inv c e (vc_max _ V) R)) as P. unfold adding. change (m_pos (machine_of e)) with (position_quantity (ex_pos e)).
  destruct sd, (ex_pos e) as [|i|i]; cbn [same_side position_quantity pos_ok] in *; try discriminate; try (left; reflexivity); right; exists (pi_qty i); lia.
Qed.
Lemma reducing_of c e sd : valid_config c -> reachable c e -> same_side sd (ex_pos e) = false ->
  m_pos (machine_of e) = - (match sd with Buy => 1 | Sell => -1 end) * Z.abs (position_quantity (ex_pos e)).
Proof.
  intros V R S. pose proof (inv_pos _ _ (reachable_inv c e (vc_max _ V) R)) as P. change (m_pos (machine_of e)) with (position_quantity (ex_pos e)).
  destruct sd, (ex_pos e) as [|i|i]; cbn [same_side position_quantity pos_ok] in *; try discriminate; lia.
Qed.

Lemma parts_same c e sd uid l ew o ep outs : valid_config c -> reachable c e -> normal_fee c -> 0 <= due_of e -> l <> [] ->
  step c e (OpMarket sd (sumZ l) uid) = Done (ew, Ok o) -> run c e (slices sd uid l) = Done (ep, outs) -> all_ok outs ->
  position_quantity (ex_pos ep) = position_quantity (ex_pos ew) /\
  position_entry_price (ex_pos ep) <= position_entry_price (ex_pos ew) /\
  - extra l <= realised c ep - realised c ew <= extra l /\
  charged ep <= charged ew <= charged ep + 2 * extra l /\
  ex_active ep = ex_active ew /\ order_margin_of ep = order_margin_of ew.
Proof.
  intros V R F D N W H A. pose proof (run_parts _ _ _ _ _ _ _ V R (step_whole _ _ _ _ _ _ _ V R W)) as W'. pose proof (run_parts _ _ _ _ _ _ _ V R H) as H'.
  destruct (play_book c sd uid _ _ _ _ W' (one_part_ok o)) as (_ & _ & B1 & B2 & B3 & _). destruct (play_book c sd uid _ _ _ _ H' A) as (Q & P & C1 & C2 & C3 & _).
  pose proof (many_parts (c_kind c) (c_scale c) (m_price (machine_of e) sd) (ct_taker (c_spec c)) sd (vc_scale _ V) (P N) F l (statement_of e) (reach_sane c e V R D) Q N) as M.
  cbv beta zeta in M, B1, C1. cbn [map fold_left] in B1. change (m_book (machine_of e)) with (statement_of e) in B1, C1. rewrite <- B1, <- C1 in M. destruct M as (M1 & M2 & M3 & M4).
  cbn [machine_of m_book statement_of l_qty l_entry l_cash l_paid l_due m_orders m_reserved] in *. unfold realised, charged, due_of.
  split; [exact M1|]. split; [exact M2|]. split; [lia|]. split; [lia|]. split; congruence.
Qed.

Lemma margins_sum c p l : valid_config c -> 0 <= p -> (forall q, In q l -> 0 < q) -> l <> [] ->
  margins c p l <= margin_at c (sumZ l) p <= margins c p l + 2 * extra l.
Proof.
  intros V Hp. pose proof (vc_imr _ V) as I. induction l as [|a l IH]; intros Q N; [contradiction|]. destruct l as [|b l].
  - rewrite sum_one. unfold margins, extra; cbn. lia.
  - pose proof (Q a (or_introl eq_refl)) as Ha. assert (K : forall q, In q (b :: l) -> 0 < q) by (intros q X; apply Q; right; exact X). specialize (IH K ltac:(discriminate)).
    pose proof (sum_pos _ K ltac:(discriminate)) as S. change (sumZ (a :: b :: l)) with (a + sumZ (b :: l)). rewrite margins_cons.
    destruct (share_add (c_kind c) (c_scale c) a (sumZ (b :: l)) p (ct_imr (c_spec c)) (vc_scale _ V) ltac:(lia) ltac:(lia) Hp I) as (_ & _ & X).
    fold (margin_at c a p) (margin_at c (sumZ (b :: l)) p) (margin_at c (a + sumZ (b :: l)) p) in X.
    replace (extra (a :: b :: l)) with (extra (b :: l) + 1) by (unfold extra; cbn [length]; lia). lia.
Qed.
Lemma parts_adding c e sd uid l ew o ep outs : valid_config c -> reachable c e -> l <> [] -> same_side sd (ex_pos e) = true ->
  step c e (OpMarket sd (sumZ l) uid) = Done (ew, Ok o) -> run c e (slices sd uid l) = Done (ep, outs) -> all_ok outs ->
  wealth_of ep = wealth_of ew /\ fees_paid ep = fees_paid ew /\ wallet_of ew <= wallet_of ep <= wallet_of ew + 2 * extra l.
Proof.
  intros V R N S W H A. pose proof (run_parts _ _ _ _ _ _ _ V R (step_whole _ _ _ _ _ _ _ V R W)) as W'. pose proof (run_parts _ _ _ _ _ _ _ V R H) as H'.
  pose proof (adding_of c e sd V R S) as G. destruct (adding_play c sd uid _ _ _ _ G W' (one_part_ok o)) as (B1 & B2 & B3). destruct (adding_play c sd uid _ _ _ _ G H' A) as (C1 & C2 & C3).
  destruct (play_book c sd uid _ _ _ _ W' (one_part_ok o)) as (_ & _ & _ & _ & D1 & _). destruct (play_book c sd uid _ _ _ _ H' A) as (Q & P & _ & _ & D2 & _).
  pose proof (margins_sum c (m_price (machine_of e) sd) l V ltac:(specialize (P N); lia) Q N) as M. change (margins c (m_price (machine_of e) sd) [sumZ l]) with (margin_at c (sumZ l) (m_price (machine_of e) sd) + 0) in B3.
  cbn [machine_of m_book statement_of l_cash l_paid m_held m_reserved] in B1, B2, B3, C1, C2, C3, D1, D2. split; [lia|]. split; [lia|]. unfold wealth_of in *. lia.
Qed.

Lemma sizes_fault c l : valid_config c -> (sizes_ok c l <-> forall q, In q l -> 0 < q /\ quantity_fault (ct_qf (c_spec c)) q = None).
Proof.
  intros V. unfold sizes_ok. split; intros H q I; destruct (H q I) as [Hq F]; (split; [exact Hq|]); apply (fault_allowed _ _ (vc_qtick _ V) Hq), F.
Qed.
Lemma price_of e sd : m_price (machine_of e) sd = taker_price e sd.
Proof. reflexivity. Qed.
Lemma parts_adding_exact c e sd uid l : valid_config c -> reachable c e -> same_side sd (ex_pos e) = true ->
  ((exists ep outs, run c e (slices sd uid l) = Done (ep, outs) /\ all_ok outs) <->
   sizes_ok c l /\ (l <> [] -> 0 < taker_price e sd) /\ margins_post c (taker_price e sd) l /\ each_funded c e (taker_price e sd) l).
Proof.
  intros V R S. rewrite (run_parts_iff c e sd uid l V R), (adding_exact c sd uid l _ (adding_of c e sd V R S)), (sizes_fault c l V), price_of.
  unfold funds. rewrite (machine_wallet e), price_of. unfold margins_post, each_funded. split.
  - intros (H1 & H2 & H3). split; [intros q I; destruct (H1 q I) as (? & ? & _); auto|]. split; [exact H2|]. split; [intros q I; apply (H1 q I) | exact H3].
  - intros (H1 & H2 & H3 & H4). split; [intros q I; destruct (H1 q I); auto|]. split; [exact H2 | exact H4].
Qed.
Lemma margins_app c p a b : margins c p (a ++ b) = margins c p a + margins c p b.
Proof. unfold margins. rewrite map_app. induction (map _ a) as [|x r IH]; cbn in *; [reflexivity|]. unfold sumZ in *. lia. Qed.
Lemma parts_enough c e sd uid l ew o : valid_config c -> reachable c e -> normal_fee c -> l <> [] -> same_side sd (ex_pos e) = true ->
  step c e (OpMarket sd (sumZ l) uid) = Done (ew, Ok o) -> sizes_ok c l -> margins_post c (taker_price e sd) l ->
  exists ep outs, run c e (slices sd uid l) = Done (ep, outs) /\ all_ok outs.
Proof.
  intros V R F N S W Sz M. apply (parts_adding_exact c e sd uid l V R S).
  pose proof (proj1 (parts_adding_exact c e sd uid [sumZ l] V R S) (ex_intro _ _ (ex_intro _ _ (conj (step_whole _ _ _ _ _ _ _ V R W) (one_part_ok o))))) as (_ & P & _ & Fu).
  specialize (P ltac:(discriminate)). specialize (Fu [] (sumZ l) [] eq_refl). cbn [app] in Fu. change (margins c (taker_price e sd) [sumZ l]) with (margin_at c (sumZ l) (taker_price e sd) + 0) in Fu.
  assert (Q : forall q, In q l -> 0 < q) by (intros q I; apply (Sz q I)). set (p := taker_price e sd) in *.
  split; [exact Sz|]. split; [auto|]. split; [exact M|]. intros b q a E.
  pose proof (proj1 (margins_sum c p l V ltac:(lia) Q N)) as X. assert (E2 : margins c p l = margins c p (b ++ [q]) + margins c p a) by (rewrite E, !margins_app; cbn [margins map]; rewrite margins_cons; unfold margins; cbn; lia).
  assert (A : 0 <= margins c p a).
  { assert (K : forall x, In x a -> 0 < margin_at c x p) by (intros x I; apply M; rewrite E; apply in_or_app; right; right; exact I). clear -K. unfold margins. induction a as [|x a IH]; cbn; [lia|].
    pose proof (K x (or_introl eq_refl)). assert (0 <= sumZ (map (fun q => margin_at c q p) a)) by (apply IH; intros y Y; apply K; right; exact Y). unfold sumZ in *. lia. }
  assert (T : taker_cost c q p <= taker_cost c (sumZ l) p).
  { assert (Hq : 0 < q) by (apply Q; rewrite E; apply in_elt). assert (Hs : 0 <= sumZ l - q).
    { rewrite E. assert (Qa : forall x, In x (b ++ a) -> 0 < x) by (intros x I; apply Q; rewrite E; apply in_app_or in I as [I|I]; apply in_or_app; [left; exact I | right; right; exact I]).
      pose proof (sum_all _ Qa) as Y. assert (sumZ (b ++ q :: a) = q + sumZ (b ++ a)); [|lia]. clear. unfold sumZ. induction b as [|y b IH]; cbn; [reflexivity | lia]. }
    destruct (share_add (c_kind c) (c_scale c) q (sumZ l - q) p (ct_taker (c_spec c)) (vc_scale _ V) ltac:(lia) Hs ltac:(lia) F) as (_ & Y1 & Y2). replace (q + (sumZ l - q)) with (sumZ l) in Y2 by lia.
    unfold taker_cost. lia. }
  lia.
Qed.
Lemma parts_reducing_exact c e sd uid l : valid_config c -> reachable c e -> same_side sd (ex_pos e) = false -> l <> [] ->
  (forall q, In q l -> 0 < q) -> sumZ l <= Z.abs (position_quantity (ex_pos e)) ->
  let entry := position_entry_price (ex_pos e) in
  ((exists ep outs, run c e (slices sd uid l) = Done (ep, outs) /\ all_ok outs) <->
   sizes_ok c l /\ 0 < taker_price e sd /\ margins_post c entry l /\
   (c_dbg c = true -> sumZ l = Z.abs (position_quantity (ex_pos e)) -> position_margin_of e = margins c entry l)).
Proof.
  intros V R S N Q L entry. rewrite (run_parts_iff c e sd uid l V R), (reducing_exact c sd uid V l _ _ (reducing_of c e sd V R S) L Q), (sizes_fault c l V), price_of.
  cbn [machine_of m_book m_held statement_of l_entry]. fold entry. unfold margins_post. split.
  - intros (H1 & H2 & H3). split; [intros q I; split; [apply Q, I | apply (H1 q I)]|]. split; [auto|]. split; [intros q I; apply (H1 q I) | auto].
  - intros (H1 & H2 & H3 & H4). split; [intros q I; split; [apply (H1 q I) | apply (H3 q I)]|]. auto.
Qed.
