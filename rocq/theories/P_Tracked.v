(** Property C72: account trackers of a user's own type. *)
From Verif Require Import Base Types Accounting Position OrderMargin MarketUpdate Tracker Exchange Untracked Tracked Spec SpecMarket SpecQuiet SpecTracked
  Scenario ScenarioTracked TrackedProof TrackedFull.

(** With a tracker of any type a call returns just if it returns without one and the tracker gets through the calls made to it.
    The new state and the result are those without a tracker.  The tracker is what its methods make of the calls [told] lists. *)
Theorem C72_call : forall T (hook : T -> event -> outcome T) c e o t t' e' r,
  t_step hook c e o t = Done (t', (e', r)) <->
  q_step c e o = Done (e', r) /\ replay hook t (told e o r) = Done t'.
Proof. exact (fun T => @any_step T). Qed.
Print Assumptions C72_call.

(** So it is over histories. *)
Theorem C72_history : forall T (hook : T -> event -> outcome T) c e ops t t' e' outs,
  t_run hook c e ops t = Done (t', (e', outs)) <->
  q_run c e ops = Done (e', outs) /\ replay hook t (told_all c e ops) = Done t'.
Proof. exact (fun T => @any_run T). Qed.
Print Assumptions C72_history.

(** A tracker that never panics does not change which panic ends a history. *)
Theorem C72_panics : forall T (hook : T -> event -> outcome T) c e ops t p,
  never_panics hook -> t_run hook c e ops t = Panic p <-> q_run c e ops = Panic p.
Proof. exact (fun T => @any_panic T). Qed.
Print Assumptions C72_panics.

(** The exchange of Exchange.v is the one with the full tracker, panics included. *)
Theorem C72_full_tracker : forall c e ops,
  t_run (full_tracker c) c (erase e) ops (ex_trk e) =
  match run c e ops with Done (e', outs) => Done (ex_trk e', (erase e', outs)) | Panic p => Panic p end.
Proof. exact full_run. Qed.
Print Assumptions C72_full_tracker.

(** What the full tracker holds after a history is what its methods make of the calls listed. *)
Theorem C72_full_record : forall c e ops e' outs,
  run c e ops = Done (e', outs) -> replay (full_tracker c) (ex_trk e) (told_all c (erase e) ops) = Done (ex_trk e').
Proof. exact full_replay. Qed.
Print Assumptions C72_full_record.

(** The empty tracker. *)
Theorem C72_no_tracker : forall c e ops,
  t_run no_tracker c e ops tt =
  match q_run c e ops with Done (e', outs) => Done (tt, (e', outs)) | Panic p => Panic p end.
Proof. exact none_run. Qed.
Print Assumptions C72_no_tracker.

(** The demonstration history: a tracker that nets the trades ends at the position, which a liquidation has closed; before the last
    call it is short 2.  The thirteen calls make 25 calls to the tracker; those of the first two are listed.  A tracker that panics at a
    cancellation breaks the history. *)
Example C72_case :
  let c := demo_cfg Linear false in
  match q_init c with
  | Done e =>
      match t_run net_bought c e demo_ops 0, t_run net_bought c e (firstn 12 demo_ops) 0 with
      | Done (n, (e1, _)), Done (n2, (e2, _)) =>
          n = 0 /\ qx_pos e1 = Neutral /\ n2 = - d 2 /\ position_quantity (qx_pos e2) = n2
      | _, _ => False
      end /\
      t_run no_cancels c e demo_ops 0 = Panic PLiquidateNeutral /\
      Z.of_nat (length (told_all c e demo_ops)) = 25 /\
      told_all c e (firstn 2 demo_ops) =
      [ EvMarket {| ms_bid := d 100; ms_ask := d 101; ms_ts := 1; ms_step := 1 |};
        EvBalances {| ub_wallet := d 1000; ub_pm := 0; ub_om := 0 |} 1005000;
        EvMarketSubmitted {| nm_uid := 6; nm_side := Buy; nm_qty := d 1 |};
        EvMarketFilled;
        EvTrade Buy (d 101) (d 1) ]
  | Panic _ => False
  end.
Proof. vm_compute. repeat split. Qed.
