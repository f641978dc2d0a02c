(** Property C52. *)
From Verif Require Import Base Types Tracker Stats Exchange Spec SpecConfig SpecTrack SpecStats Scenario ScenarioPanic StatsProof.

(** C52: the tracker remembers the starting balance, the first and last mid price and the first and last time, where
    zero counts as "not set". *)
Theorem C52_memory : forall c ops e outs,
  0 <= c_max c <= 10000 -> history c ops e outs ->
  let t := ex_trk e in
  tk_start t = c_start c /\ tk_price_first t = first_set (marks ops) /\ tk_price_last t = last (marks ops) 0 /\
  tk_ts_first t = first_set (update_times ops) /\ tk_ts_last t = last (update_times ops) 0.
Proof. exact history_stats. Qed.
Print Assumptions C52_memory.

(** C52: a tracker is made exactly from a positive starting balance. *)
Theorem C52_new : forall start, (exists t, tracker_new start = Done t) <-> 0 < start.
Proof. exact new_iff. Qed.
Print Assumptions C52_new.

(** C52: the realised profit is that of the last sample. *)
Theorem C52_rpnl : forall c ops e outs,
  0 <= c_max c <= 10000 -> history c ops e outs -> rpnl (ex_trk e) = hd 0 (tk_samples (ex_trk e)) - c_start c.
Proof. exact history_rpnl. Qed.
Print Assumptions C52_rpnl.

(** C52: it only changes with updates that take a sample, and then to the profit before the update is executed. *)
Theorem C52_rpnl_step : forall c e o e' r,
  0 <= c_max c <= 10000 -> reachable c e -> step c e o = Done (e', r) ->
  rpnl (ex_trk e') =
  match o with
  | OpUpdate ru => if due_sample e (update_time ru) then wealth_of e - c_start c else rpnl (ex_trk e)
  | _ => rpnl (ex_trk e)
  end.
Proof. exact step_rpnl. Qed.
Print Assumptions C52_rpnl_step.

(** C52, refuted before the first update: the realised profit of a fresh account is minus its balance. *)
Theorem C52_rpnl_start_refuted : forall c e, init c = Done e -> rpnl (ex_trk e) = - c_start c.
Proof. exact rpnl_start. Qed.
Print Assumptions C52_rpnl_start_refuted.

(** C52: trading days of updates in order of time. *)
Theorem C52_trading_days : forall c ops e outs,
  0 <= c_max c <= 10000 -> history c ops e outs -> ordered 0 (update_times ops) ->
  num_trading_days (ex_trk e) = Done ((last (update_times ops) 0 - first_set (update_times ops)) / day) /\
  0 <= last (update_times ops) 0 - first_set (update_times ops).
Proof. exact trading_days. Qed.
Print Assumptions C52_trading_days.

(** C52: for any times, it panics exactly if the last one lies before the first. *)
Theorem C52_trading_days_exact : forall c ops e outs,
  0 <= c_max c <= 10000 -> history c ops e outs ->
  num_trading_days (ex_trk e) =
    if last (update_times ops) 0 <? first_set (update_times ops) then Panic PTradingDays
    else Done ((last (update_times ops) 0 - first_set (update_times ops)) / day).
Proof. exact days_exact. Qed.
Print Assumptions C52_trading_days_exact.

(** C52, refuted for times that go back: the exchange accepts them, the statistic panics. *)
Theorem C52_trading_days_refuted : forall dbg, exists e outs,
  history (L dbg) [quote 100 101 5; quote 100 101 3] e outs /\ num_trading_days (ex_trk e) = Panic PTradingDays.
Proof. exact days_panic. Qed.
Print Assumptions C52_trading_days_refuted.

(** C52: buying and holding gains when the price rose and loses when it fell; selling is the opposite. *)
Theorem C52_hold : forall c ops e outs,
  0 <= c_max c <= 10000 -> 0 < c_scale c -> 0 < c_start c -> history c ops e outs ->
  let p0 := first_set (marks ops) in let p1 := last (marks ops) 0 in
  0 < p0 -> 0 < p1 ->
  exists v, buy_and_hold_return c (ex_trk e) = Done v /\ sell_and_hold_return c (ex_trk e) = Done (- v) /\
    (p0 = p1 -> v = 0) /\ (p0 <= p1 -> 0 <= v) /\ (p1 <= p0 -> v <= 0).
Proof. exact hold_law. Qed.
Print Assumptions C52_hold.

(** C52, refuted before the first price: for linear contracts the statistic, and with it printing the tracker, panics. *)
Theorem C52_hold_refuted : forall c e, init c = Done e -> 0 < c_scale c -> 0 < c_start c ->
  buy_and_hold_return c (ex_trk e) = match c_kind c with Linear => Panic PDivByZero | Inverse => Done 0 end.
Proof. exact hold_panic. Qed.
Print Assumptions C52_hold_refuted.

(** C52: the share of bought volume never panics, is missing only without volume, and is the truncated fraction. *)
Theorem C52_volume_ratio : forall c e, valid_config c -> reachable c e ->
  let b := tk_buy_volume (ex_trk e) in let total := turnover (ex_trk e) in
  0 <= b <= total /\
  (total = 0 -> buy_volume_ratio c (ex_trk e) = Done None) /\
  (total <> 0 -> exists r, buy_volume_ratio c (ex_trk e) = Done (Some r) /\ 0 <= r <= c_scale c /\ r * total <= b * c_scale c < (r + 1) * total).
Proof. exact ratio_law. Qed.
Print Assumptions C52_volume_ratio.

(** The demonstration history: prices, days, profit, shares. *)
Example C52_case :
  match play (L true) demo_ops with
  | Done (e, _) =>
      first_set (marks demo_ops) = 1005000 /\ buy_volume_ratio (L true) (ex_trk e) = Done (Some 5606) /\
      num_trading_days (ex_trk e) = Done 0 /\ match buy_and_hold_return (L true) (ex_trk e) with Done v => v <> 0 | Panic _ => False end
  | Panic _ => False
  end.
Proof. vm_compute. repeat split; discriminate. Qed.
