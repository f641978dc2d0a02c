(** Witnesses about sampling, statistics, build modes. *)
From Verif Require Import ProofBase OpLemmas Inv Spec SpecConfig SpecTrack SpecBuild Scenario ScenarioPanic PanicFacts PositionFacts OrderProof TrackProof SampleProof BuildProof TrackerProof.

(** Sampling every 10 s: the gap of 28 s is caught up with one sample per update. *)
Definition sec (n : Z) : Z := n * 1000000000.
Definition sampled_ops : list op :=
  [quote 100 101 (sec 1); quote 100 101 (sec 5); quote 100 101 (sec 12); quote 100 101 (sec 40); quote 100 101 (sec 41); quote 100 101 (sec 42)].
Lemma sampling_case : exists e outs, history (L true) sampled_ops e outs /\
  instants (interval_of (L true)) (update_times sampled_ops) = [sec 1; sec 11; sec 21; sec 31; sec 41] /\
  tk_samples (ex_trk e) = [d 1000; d 1000; d 1000; d 1000; d 1000].
Proof. played (L true) sampled_ops. vm_compute. repeat split. Qed.

Lemma tally_case : exists e outs, history (L true) demo_ops e outs /\
  let t := ex_trk e in
  [tk_sub_limit t; tk_cancelled t; tk_fill_events t; tk_fully_filled t; tk_sub_market t; tk_filled_market t] = [5; 2; 2; 1; 3; 3] /\
  tk_buy_volume t = d 522 /\ tk_sell_volume t = d 409.
Proof. played (L true) demo_ops. vm_compute. repeat split. Qed.

Lemma statistics_grow c e o e' r :
  valid_config c -> reachable c e -> step c e o = Done (e', r) -> grows (ex_trk e) (ex_trk e').
Proof. intros V R H. exact (step_grows c e o e' r (vc_scale _ V) (reachable_inv _ _ (vc_max _ V) R) H). Qed.

Lemma agree_case : exists e outs, history (L true) demo_ops e outs /\ history (release (L true)) demo_ops e outs.
Proof.
  destruct (play (L true) demo_ops) as [[e outs]|] eqn:E; [|vm_compute in E; discriminate]. exists e, outs.
  split; [apply play_history; exact E|]. apply build_agree, play_history. exact E.
Qed.
(** The converse fails: closing with margin left. *)
Lemma release_continues : exists e outs, history (T true) truncated_ops e outs /\
  step (T true) e (OpMarket Sell 6 3) = Panic PCloseMarginDebug /\ In PCloseMarginDebug debug_only /\
  exists e' f, step (release (T true)) e (OpMarket Sell 6 3) = Done (e', Ok (OutMarket f)).
Proof.
  played (T true) truncated_ops. split; [vm_compute; reflexivity|]. split; [cbn; tauto|]. do 2 eexists. vm_compute. reflexivity.
Qed.
(** Two initial states with different trackers. *)
Lemma tracker_case : exists e t e1 e2 outs, init (L true) = Done e /\ t <> ex_trk e /\ same_trading e (set_trk e t) /\
  run (L true) e demo_ops = Done (e1, outs) /\ run (L true) (set_trk e t) demo_ops = Done (e2, outs) /\ ex_acc e2 = ex_acc e1.
Proof.
  destruct (play (L true) demo_ops) as [[e1 outs]|] eqn:E; [|vm_compute in E; discriminate]. apply play_history in E as [e [Hi Hr]].
  exists e, {| tk_start := 7; tk_sub_limit := 1; tk_cancelled := 2; tk_fill_events := 3; tk_fully_filled := 4; tk_sub_market := 5;
    tk_filled_market := 6; tk_buy_volume := 8; tk_sell_volume := 9; tk_price_first := 1; tk_price_last := 2; tk_ts_first := 3; tk_ts_last := 4;
    tk_last_balance_sum := 5; tk_samples := [1; 2] |}.
  match goal with |- exists e1 e2 outs, _ /\ ?t <> _ /\ _ => set (t0 := t) end.
  assert (Hs : same_trading e (set_trk e t0)) by (repeat split).
  pose proof (tracker_inert (L true) _ _ demo_ops Hs) as Ho. rewrite Hr in Ho. cbn [same_outcome] in Ho.
  destruct (run (L true) (set_trk e t0) demo_ops) as [[e2 outs2]|p]; [|contradiction]. destruct Ho as [Ht ->].
  exists e1, e2, outs. repeat split; try assumption; try reflexivity.
  - vm_compute in Hi. injection Hi as <-. discriminate.
  - apply Ht.
Qed.
