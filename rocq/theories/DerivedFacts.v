(** What histories say about the derived statistics on machine integers. *)
From Verif Require Import ProofBase StepLemmas OpLemmas FillLemmas Inv Spec SpecLedger MarginProof OrderProof SoundProof PairsProof HealthProof SpecConfig SpecTrack SpecStats StatsProof
  SpecBound BoundProof NoOverflow Tracker Stats Width Fixed SpecFixed SpecFits SpecNeeds FixedProof FixedFacts NeedsProof Derived SpecDerived DerivedProof.

(** ** Profits *)
Record pairs (start : Z) (a : accounts) : Prop := {
  pr_out : ta_debits (ac_treasury a) + ta_debits (ac_fee a) <= ta_credits (ac_wallet a);
  pr_in : start <= ta_credits (ac_treasury a);
  pr_start : start <= ta_debits (ac_wallet a);
  pr_loss : 0 <= ta_debits (ac_treasury a) + ta_debits (ac_fee a);
  pr_fee : ta_credits (ac_fee a) = 0;
  pr_broker : ta_debits (ac_broker a) = 0 /\ ta_credits (ac_broker a) = 0;
  pr_sums : debit_sum a = credit_sum a
}.
Lemma flow_pairs start a b : flow a b -> pairs start a -> pairs start b.
Proof.
  induction 1 as [|a b d c amt Hp IH Ha Hm]; intros P; [assumption|]. destruct (IH P) as [A B C D E [F1 F2] G]. clear IH P Hp.
  destruct b as [w o p f br t]. destruct w as [w1 w2], o as [o1 o2], p as [p1 p2], f as [f1 f2], br as [b1 b2], t as [t1 t2].
  unfold debit_sum, credit_sum in G. cbn in A, B, C, D, E, F1, F2, G.
  destruct d, c; try contradiction; (constructor; [..|unfold debit_sum, credit_sum]); cbn; lia.
Qed.
Lemma flow_mono a b : flow a b -> ta_credits (ac_wallet a) <= ta_credits (ac_wallet b) /\ ta_credits (ac_treasury a) <= ta_credits (ac_treasury b).
Proof.
  induction 1 as [|a b d c amt Hp IH Ha Hm]; [lia|].
  destruct b as [w o p f br t]. destruct w as [w1 w2], o as [o1 o2], p as [p1 p2], f as [f1 f2], br as [b1 b2], t as [t1 t2].
  destruct d, c; try contradiction; cbn in *; lia.
Qed.
Lemma pairs_wealth start e : pairs start (ex_acc e) ->
  - ta_credits (ac_wallet (ex_acc e)) <= wealth_of e - start <= ta_credits (ac_treasury (ex_acc e)) - start.
Proof.
  intros [A B C D E [F1 F2] G]. unfold wealth_of, wallet_of, order_margin_of, position_margin_of, balances, margin_balance_of, net_balance in *.
  cbn [ub_wallet ub_om ub_pm] in *. unfold debit_sum, credit_sum in G. destruct (ex_acc e) as [w o p f br t]. cbn in *. lia.
Qed.
Lemma init_pairs c e : 0 < c_start c -> init c = Done e -> pairs (c_start c) (ex_acc e) /\ ta_credits (ac_wallet (ex_acc e)) = 0.
Proof.
  intros Hs H. apply init_fields in H as (_ & _ & _ & _ & _ & _ & _ & _ & _ & ->).
  split; [constructor; [..|unfold debit_sum, credit_sum]; cbn; lia | reflexivity].
Qed.

Definition book_range (c : config) (e : exchange) : Prop :=
  - Z.max (c_start c) (ta_credits (ac_wallet (ex_acc e))) <= rpnl (ex_trk e) <= ta_credits (ac_treasury (ex_acc e)) - c_start c.
Lemma step_range c e o e' r : 0 <= c_max c <= 10000 -> reachable c e -> pairs (c_start c) (ex_acc e) -> book_range c e ->
  step c e o = Done (e', r) -> pairs (c_start c) (ex_acc e') /\ book_range c e'.
Proof.
  intros Hm R P B H. pose proof (step_flow _ _ _ _ _ H) as F. split; [eapply flow_pairs; eassumption|].
  pose proof (flow_mono _ _ F) as [M1 M2]. pose proof (pairs_wealth _ _ P) as W. unfold book_range in *.
  rewrite (step_rpnl _ _ _ _ _ Hm R H). destruct o; try lia. destruct (due_sample _ _); lia.
Qed.
Lemma run_range c ops : 0 <= c_max c <= 10000 -> forall e e' outs, reachable c e -> pairs (c_start c) (ex_acc e) -> book_range c e ->
  run c e ops = Done (e', outs) -> pairs (c_start c) (ex_acc e') /\ book_range c e'.
Proof.
  intros Hm. induction ops as [|o ops IH]; intros e e' outs R P B H; cbn [run] in H; [inv; split; assumption|].
  apply bind_done in H as [[e1 r] [H1 H]]. apply bind_done in H as [[e2 rs] [H2 H]]. inv.
  destruct (step_range _ _ _ _ _ Hm R P B H1) as [P1 B1]. eapply IH; [exact (reach_step _ _ _ _ _ R H1) | exact P1 | exact B1 | exact H2].
Qed.
Lemma init_start c e : init c = Done e -> 0 < c_start c.
Proof. unfold init, tracker_new. destruct (Z.ltb_spec 0 (c_start c)); [intros; assumption | discriminate]. Qed.
Lemma history_range c ops e outs : 0 <= c_max c <= 10000 -> history c ops e outs -> pairs (c_start c) (ex_acc e) /\ book_range c e.
Proof.
  intros Hm (e0 & Hi & Hr). pose proof (init_start _ _ Hi) as Hs. destruct (init_pairs _ _ Hs Hi) as [P W].
  eapply run_range; [exact Hm | exact (init_reach _ _ Hi) | exact P | | exact Hr].
  destruct (init_trk _ _ Hi) as (A & _ & _ & _ & _ & B & _). unfold book_range, rpnl. rewrite A, B.
  pose proof (pr_in _ _ P). lia.
Qed.

Lemma play_history w c ops e outs : w_play w c ops = Fine (Done (e, outs)) -> history c ops e outs.
Proof.
  intros H. destruct (play_agrees w c ops) as [E|E]; rewrite E in H; [discriminate|]. injection H as H. unfold u_play in H.
  apply bind_done in H as (e0 & Hi & Hr). exists e0. split; assumption.
Qed.
Lemma profit_fits w c ops e outs : 0 < w -> 0 <= c_max c <= 10000 -> w_play w c ops = Fine (Done (e, outs)) ->
  w_rpnl w (ex_trk e) = Fine (Done (rpnl (ex_trk e))).
Proof.
  intros Hw Hm H. pose proof (play_totals w c ops e outs WALLET Hw H) as [A1 A2]. pose proof (play_totals w c ops e outs TREASURY Hw H) as [_ B2].
  destruct (history_range c ops e outs Hm (play_history _ _ _ _ _ H)) as [P B]. pose proof (pr_start _ _ P). cbn [get_account] in *.
  pose proof (play_history _ _ _ _ _ H) as (e0 & Hi & _). pose proof (init_start _ _ Hi).
  unfold w_rpnl, csub, chk. change (tk_last_balance_sum (ex_trk e) - tk_start (ex_trk e)) with (rpnl (ex_trk e)).
  replace (fits w (rpnl (ex_trk e))) with true; [reflexivity|]. symmetry. apply range_fits. unfold in_range, book_range in *. lia.
Qed.

(** ** Days *)
Lemma first_set_in l : first_set l = 0 \/ In (first_set l) l.
Proof.
  unfold first_set. destruct (filter _ l) as [|x r] eqn:E; [left; reflexivity|]. right.
  assert (I : In x (filter (fun x => negb (x =? 0)) l)) by (rewrite E; left; reflexivity). apply filter_In in I as [I _]. exact I.
Qed.
Lemma last_in (l : list Z) : last l 0 = 0 \/ In (last l 0) l.
Proof.
  induction l as [|x l IH]; [left; reflexivity|]. right. destruct l as [|y l]; [left; reflexivity|].
  cbn [last] in IH |- *. destruct IH as [E|I]; [|right; exact I]. destruct l; [right; left; reflexivity|].
  destruct (exists_last (l := y :: z :: l)) as (l' & a & E'); [discriminate|]. right. rewrite E'.
  change (In (last (y :: z :: l) 0) (l' ++ [a])). rewrite E', last_last. apply in_or_app. right; left; reflexivity.
Qed.
Lemma days_fit c ops e outs : 0 <= c_max c <= 10000 -> history c ops e outs -> Forall sane_time (update_times ops) ->
  w_num_trading_days (ex_trk e) = Fine (num_trading_days (ex_trk e)).
Proof.
  intros Hm H F. destruct (history_stats _ _ _ _ Hm H) as (_ & _ & _ & A & B). rewrite Forall_forall in F. unfold sane_time in F.
  rewrite (t_days 64). replace (forallb (nfits 64) (n_days (ex_trk e))) with true; [reflexivity|]. symmetry.
  unfold n_days, guarding. destruct (_ <=? _); [|reflexivity]. cbn [forallb nfits]. rewrite Bool.andb_true_r. apply range_fits. unfold in_range.
  rewrite A, B. change (2 ^ (64 - 1)) with (2 ^ 63).
  assert (0 <= first_set (update_times ops) < 2 ^ 63) by (destruct (first_set_in (update_times ops)) as [->|I]; [lia | exact (F _ I)]).
  assert (0 <= last (update_times ops) 0 < 2 ^ 63) by (destruct (last_in (update_times ops)) as [->|I]; [lia | exact (F _ I)]).
  lia.
Qed.

(** ** Volumes *)
Lemma run_bd c P T L G ops : valid_config c -> rate_ok c -> 0 <= c_sample_s c -> forall V n N e e' outs, Bd c P T G V n N e ->
  (forall o, In o ops -> call_in P T L o) -> 0 <= weight c P -> c_scale c * c_start c + weight c P * (2 * (V + volume ops)) <= G ->
  run c e ops = Done (e', outs) -> exists n' N', Bd c P T G (V + volume ops) n' N' e'.
Proof.
  intros Vc R Hi. induction ops as [|o ops IH]; intros V n N e e' outs B Hin W HG H; cbn [run] in H.
  - inv. exists n, N. replace (V + volume []) with V by (cbn; lia). exact B.
  - apply bind_done in H as [[e1 r] [H1 H]]. apply bind_done in H as [[e2 rs] [H2 H]]. inv. rewrite volume_cons in *.
    pose proof (volume_nonneg ops). assert (HG1 : c_scale c * c_start c + weight c P * (2 * (V + ordered o)) <= G) by nia.
    pose proof (step_bd _ _ _ _ _ _ _ _ _ _ _ _ Vc R Hi B (Hin o (or_introl eq_refl)) HG1 H1) as B1.
    rewrite Z.add_assoc. eapply IH; [exact B1 | intros x Hx; apply Hin; right; exact Hx | exact W | | exact H2].
    replace (V + ordered o + volume ops) with (V + (ordered o + volume ops)) by lia. exact HG.
Qed.
Lemma small_turnover w c P V T ops e outs :
  valid_config c -> config_in c P V T (2 ^ (w - 1)) -> volume ops <= V ->
  (forall o, In o ops -> call_in P T (2 ^ (w - 1)) o) -> affordable c P V (2 ^ (w - 1)) ops ->
  history c ops e outs -> 0 <= turnover (ex_trk e) < 2 ^ (w - 1).
Proof.
  intros Vc Ci HV Hin Ha (e0 & Hi & Hr). pose proof (ci_price _ _ _ _ _ Ci) as [HP _]. pose proof (ci_sample _ _ _ _ _ Ci) as (_ & Cs & _).
  pose proof (vc_scale _ Vc) as Hs. pose proof (vc_start _ Vc) as Hst. pose proof (volume_nonneg ops) as Hv. pose proof (submissions_nonneg ops) as Hn.
  assert (W : 0 <= weight c P) by (apply weight_nonneg; lia).
  assert (G0 : c_scale c * c_start c <= wealth c P V) by (unfold wealth; nia).
  pose proof (init_bd c P T e0 (wealth c P V) Vc HP G0 Hi) as B0.
  destruct (run_bd c P T (2 ^ (w - 1)) (wealth c P V) ops Vc (conj (ci_maker _ _ _ _ _ Ci) (ci_taker _ _ _ _ _ Ci)) Cs 0 0 0 e0 e outs B0 Hin W) as (n' & N' & B);
    [unfold wealth; nia | exact Hr|].
  pose proof (bd_cash _ _ _ _ _ _ _ _ B) as M. unfold bd_money in M. pose proof (mo_buy _ _ _ _ _ _ _ _ _ M). pose proof (mo_sell _ _ _ _ _ _ _ _ _ M).
  pose proof (mo_turn _ _ _ _ _ _ _ _ _ M) as Ht. unfold turn in Ht. unfold turnover. split; [lia|].
  assert (Q : 0 <= pq (ex_pos e)) by (unfold pq; lia).
  pose proof (load_nonneg _ (mi_good _ _ (sound_mid _ _ (bd_sound _ _ _ _ _ _ _ _ B)))) as D.
  unfold affordable in Ha. replace (0 + volume ops) with (volume ops) in Ht by lia.
  assert (0 <= submissions ops * wealth c P V) by (apply Z.mul_nonneg_nonneg; [exact Hn | unfold wealth; nia]).
  assert (0 <= weight c P * (pq (ex_pos e) + 2 * load (ex_om e))) by (apply Z.mul_nonneg_nonneg; lia).
  assert (0 <= weight c P * volume ops) by (apply Z.mul_nonneg_nonneg; lia). assert (0 < c_scale c * c_start c) by (apply Z.mul_pos_pos; lia).
  apply (Z.mul_lt_mono_pos_l (c_scale c)); lia.
Qed.
