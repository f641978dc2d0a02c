(** Histories that return, after which a derived statistic overflows. *)
From Verif Require Import ProofBase Spec SpecConfig SpecTrack SpecStats Scenario ScenarioPanic Tracker Stats Width Fixed SpecFixed SpecFits SpecNeeds FixedFacts
  NeedsProof Derived SpecDerived DerivedProof ScenarioFixed ScenarioDerived.

Definition then_holds (w : Z) (c : config) (ops : list op) (f : exchange -> bool) : bool :=
  match w_play w c ops with Fine (Done (e, _)) => f e | _ => false end.
Lemma then_e w c ops f : then_holds w c ops f = true -> exists e outs, w_play w c ops = Fine (Done (e, outs)) /\ f e = true.
Proof. unfold then_holds. destruct (w_play w c ops) as [[[e outs]|]|]; try discriminate. intros H. exists e, outs. split; [reflexivity | exact H]. Qed.
Lemma over_e {A} (m : checked A) : overflows m = true -> m = Overflow.
Proof. destruct m; [discriminate | reflexivity]. Qed.

Lemma busy_overflow : exists w c ops e outs, valid_config c /\ w_play w c ops = Fine (Done (e, outs)) /\
  w_turnover w (ex_trk e) = Overflow /\ w_buy_volume_ratio w c (ex_trk e) = Overflow /\ w_display_numbers w c (ex_trk e) = Overflow.
Proof.
  exists 32, busy_cfg, (busy_ops 130).
  assert (H : then_holds 32 busy_cfg (busy_ops 130) (fun e => overflows (w_turnover 32 (ex_trk e)) && overflows (w_buy_volume_ratio 32 busy_cfg (ex_trk e)) &&
    overflows (w_display_numbers 32 busy_cfg (ex_trk e)))%bool = true) by (vm_compute; reflexivity).
  apply then_e in H as (e & outs & H & F). apply andb_prop in F as [F C]. apply andb_prop in F as [A B]. exists e, outs.
  split; [apply demo_valid; [cbn; tauto | reflexivity | vm_compute; split; discriminate]|]. split; [exact H|].
  split; [exact (over_e _ A)|]. split; [exact (over_e _ B) | exact (over_e _ C)].
Qed.
Lemma penny_overflow : exists w c ops e outs, valid_config c /\ w_play w c ops = Fine (Done (e, outs)) /\
  w_buy_and_hold_return w c (ex_trk e) = Overflow /\ w_sell_and_hold_return w c (ex_trk e) = Overflow /\ w_display_numbers w c (ex_trk e) = Overflow.
Proof.
  set (c := demo_cfg Linear false). exists 32, c, penny_ops.
  assert (H : then_holds 32 c penny_ops (fun e => overflows (w_buy_and_hold_return 32 c (ex_trk e)) && overflows (w_sell_and_hold_return 32 c (ex_trk e)) &&
    overflows (w_display_numbers 32 c (ex_trk e)))%bool = true) by (vm_compute; reflexivity).
  apply then_e in H as (e & outs & H & F). apply andb_prop in F as [F C]. apply andb_prop in F as [A B]. exists e, outs.
  split; [apply demo_valid; [cbn; tauto | reflexivity | vm_compute; split; discriminate]|]. split; [exact H|].
  split; [exact (over_e _ A)|]. split; [exact (over_e _ B) | exact (over_e _ C)].
Qed.
Definition late (n : number) : bool := match n with Tim z => negb (fits 64 z) | _ => false end.
Lemma late_overflow w l : existsb late l = true -> forallb (nfits w) l = false.
Proof.
  intros H. apply existsb_exists in H as (n & I & L). destruct (forallb (nfits w) l) eqn:F; [|reflexivity]. rewrite forallb_forall in F.
  specialize (F _ I). destruct n; try discriminate. cbn in L, F. rewrite F in L. discriminate.
Qed.
Lemma ancient_overflow w : 64 <= w -> exists c ops e outs, valid_config c /\ w_play w c ops = Fine (Done (e, outs)) /\
  w_num_trading_days (ex_trk e) = Overflow /\ w_display_numbers w c (ex_trk e) = Overflow.
Proof.
  intros Hw. set (c := demo_cfg Linear true). exists c, ancient_ops.
  assert (H : then_holds 64 c ancient_ops (fun e => overflows (w_num_trading_days (ex_trk e)) && existsb late (n_display c (ex_trk e)))%bool = true)
    by (vm_compute; reflexivity).
  apply then_e in H as (e & outs & H & F). apply andb_prop in F as [A B]. exists e, outs.
  split; [apply demo_valid; [cbn; tauto | reflexivity | vm_compute; split; discriminate]|]. split; [exact (play_widens _ _ _ _ _ Hw H)|].
  split; [exact (over_e _ A)|]. rewrite (t_display w c (ex_trk e)), (late_overflow w _ B). reflexivity.
Qed.

Lemma demo_derived : exists e outs, w_play 26 (demo_cfg Linear true) sampled_ops = Fine (Done (e, outs)) /\
  0 <= c_max (demo_cfg Linear true) <= 10000 /\ Forall sane_time (update_times sampled_ops) /\ rpnl (ex_trk e) < 0 /\ 0 < turnover (ex_trk e) /\
  w_display_numbers 26 (demo_cfg Linear true) (ex_trk e) = Fine (display_numbers (demo_cfg Linear true) (ex_trk e)).
Proof.
  set (c := demo_cfg Linear true).
  assert (H : then_holds 26 c sampled_ops (fun e => (rpnl (ex_trk e) <? 0) && (0 <? turnover (ex_trk e)) &&
    forallb (nfits 26) (n_display c (ex_trk e)))%bool = true) by (vm_compute; reflexivity).
  apply then_e in H as (e & outs & H & F). apply andb_prop in F as [F C]. apply andb_prop in F as [A B]. exists e, outs. split; [exact H|].
  split; [vm_compute; split; discriminate|].
  split; [let l := eval vm_compute in (update_times sampled_ops) in change (update_times sampled_ops) with l; repeat (constructor; [unfold sane_time; lia|]); constructor|].
  split; [apply Z.ltb_lt; exact A|]. split; [apply Z.ltb_lt; exact B|]. rewrite (t_display 26 c (ex_trk e)), C. reflexivity.
Qed.
Lemma busy_fits : exists e1 o1 e2 o2,
  w_play 32 busy_cfg (busy_ops 119) = Fine (Done (e1, o1)) /\ w_play 32 busy_cfg (busy_ops 120) = Fine (Done (e2, o2)) /\
  w_turnover 32 (ex_trk e1) = Fine (Done (turnover (ex_trk e1))) /\ w_buy_volume_ratio 32 busy_cfg (ex_trk e1) = Fine (Done (Some 5002)) /\
  w_turnover 32 (ex_trk e2) = Overflow.
Proof.
  assert (H : then_holds 32 busy_cfg (busy_ops 119) (fun e => fits 32 (turnover (ex_trk e)) &&
    match w_buy_volume_ratio 32 busy_cfg (ex_trk e) with Fine (Done (Some v)) => v =? 5002 | _ => false end)%bool = true) by (vm_compute; reflexivity).
  assert (H2 : then_holds 32 busy_cfg (busy_ops 120) (fun e => overflows (w_turnover 32 (ex_trk e))) = true) by (vm_compute; reflexivity).
  apply then_e in H as (e1 & o1 & H & F). apply then_e in H2 as (e2 & o2 & H2 & F2). exists e1, o1, e2, o2. apply andb_prop in F as [A B].
  split; [exact H|]. split; [exact H2|]. split; [unfold w_turnover, cadd, chk; fold (turnover (ex_trk e1)); rewrite A; reflexivity|].
  split; [|exact (over_e _ F2)]. clear - B. destruct (w_buy_volume_ratio 32 busy_cfg (ex_trk e1)) as [[[v|]|]|]; [|discriminate B..]. apply Z.eqb_eq in B as ->. reflexivity.
Qed.
