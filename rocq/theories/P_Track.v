(** Properties C30, C31, C37, C38. *)
From Verif Require Import Base Types Accounting Currency MarketUpdate Tracker Position Exchange Spec SpecConfig SpecTrack SpecBuild
  Scenario ScenarioPanic TrackProof SampleProof BuildProof TrackerProof TrackFacts.

(** C30: one call. Only updates sample; the first one always, a later one exactly when an interval has passed since
    the last sample instant, which then advances by one interval. The sample is the sum of the user balances. *)
Theorem C30_step : forall c e o e' r,
  step c e o = Done (e', r) ->
  match o with
  | OpUpdate ru => if due_sample e (update_time ru) then took_sample e e' (update_time ru) else quiet e e'
  | _ => quiet e e'
  end.
Proof. exact step_samples. Qed.
Print Assumptions C30_step.

(** C30: over a history, the number of samples and the last sample instant. *)
Theorem C30_samples : forall c ops e outs,
  history c ops e outs ->
  Z.of_nat (length (tk_samples (ex_trk e))) = num_samples c ops /\
  (update_times ops <> [] -> tg_last (ex_trig e) = last (instants (interval_of c) (update_times ops)) 0).
Proof. exact history_samples. Qed.
Print Assumptions C30_samples.

(** C30: the instants are exactly one interval apart. *)
Theorem C30_spaced : forall iv t0 ts,
  instants iv (t0 :: ts) = map (fun k => t0 + Z.of_nat k * iv) (seq 0 (length (instants iv (t0 :: ts)))).
Proof. exact instants_spaced. Qed.
Print Assumptions C30_spaced.

(** C30: upper bound by the latest time and by the number of updates. *)
Theorem C30_bound : forall iv T t0 ts,
  (forall t, In t (t0 :: ts) -> t <= T) ->
  (Z.of_nat (length (instants iv (t0 :: ts))) - 1) * iv <= T - t0 /\ (1 <= length (instants iv (t0 :: ts)) <= length (t0 :: ts))%nat.
Proof. exact instants_bound. Qed.
Print Assumptions C30_bound.

(** C30: equality when updates are at most one interval apart. *)
Theorem C30_exact : forall iv t0 ts,
  0 < iv -> close_by iv t0 ts -> Z.of_nat (length (instants iv (t0 :: ts))) = 1 + (last (t0 :: ts) t0 - t0) / iv.
Proof. exact instants_exact. Qed.
Print Assumptions C30_exact.

Example C30_case : exists e outs, history (L true) sampled_ops e outs /\
  instants (interval_of (L true)) (update_times sampled_ops) = [sec 1; sec 11; sec 21; sec 31; sec 41] /\
  tk_samples (ex_trk e) = [d 1000; d 1000; d 1000; d 1000; d 1000].
Proof. exact sampling_case. Qed.
Example C30_close_case : close_by (sec 10) (sec 1) [sec 5; sec 11; sec 21] /\ length (instants (sec 10) [sec 1; sec 5; sec 11; sec 21]) = 3%nat.
Proof. vm_compute. repeat split; discriminate. Qed.

(** C31: the statistics are those of the calls and the reported fills. *)
Theorem C31_statistics : forall c ops e outs,
  0 <= c_max c <= 10000 -> no_check ops -> history c ops e outs ->
  tallied c (ex_trk e) (combine ops outs) (reported_fills c ops outs).
Proof. exact history_tally. Qed.
Print Assumptions C31_statistics.

(** C31: no call decreases them. *)
Theorem C31_grow : forall c e o e' r,
  valid_config c -> reachable c e -> step c e o = Done (e', r) -> grows (ex_trk e) (ex_trk e').
Proof. exact statistics_grow. Qed.
Print Assumptions C31_grow.

Example C31_case : exists e outs, history (L true) demo_ops e outs /\
  let t := ex_trk e in
  [tk_sub_limit t; tk_cancelled t; tk_fill_events t; tk_fully_filled t; tk_sub_market t; tk_filled_market t] = [5; 2; 2; 1; 3; 3] /\
  tk_buy_volume t = d 522 /\ tk_sell_volume t = d 409.
Proof. exact tally_case. Qed.

(** C37: a history of the debug build is a history of the release build. *)
Theorem C37_builds_agree : forall c ops e outs, history c ops e outs -> history (release c) ops e outs.
Proof. exact build_agree. Qed.
Print Assumptions C37_builds_agree.

(** C37: on each call they do the same, panics included, or the debug build stops at a debug assertion. *)
Theorem C37_builds_differ : forall c e o,
  step c e o = step (release c) e o \/ exists p, step c e o = Panic p /\ debug_stop p.
Proof. exact build_differ. Qed.
Print Assumptions C37_builds_differ.

Example C37_case : exists e outs, history (L true) demo_ops e outs /\ history (release (L true)) demo_ops e outs.
Proof. exact agree_case. Qed.
Example C37_differ_case : exists e outs, history (T true) truncated_ops e outs /\
  step (T true) e (OpMarket Sell 6 3) = Panic PCloseMarginDebug /\ In PCloseMarginDebug debug_only /\
  exists e' f, step (release (T true)) e (OpMarket Sell 6 3) = Done (e', Ok (OutMarket f)).
Proof. exact release_continues. Qed.

(** C38: from two states that differ in the tracker only, any calls end alike: same panic, or same results and same
    state up to the tracker. *)
Theorem C38_tracker_inert : forall c e e' ops, same_trading e e' -> same_outcome (run c e ops) (run c e' ops).
Proof. exact tracker_inert. Qed.
Print Assumptions C38_tracker_inert.
Example C38_case : exists e t e1 e2 outs, init (L true) = Done e /\ t <> ex_trk e /\ same_trading e (set_trk e t) /\
  run (L true) e demo_ops = Done (e1, outs) /\ run (L true) (set_trk e t) demo_ops = Done (e2, outs) /\ ex_acc e2 = ex_acc e1.
Proof. exact tracker_case. Qed.
