(** Facts behind P_Custom.v. *)
From Verif Require Import Base Types Accounting Position OrderMargin MarketUpdate Exchange Custom Spec SpecConfig SpecMarket SpecMachine SpecCustom Scenario ScenarioCustom
  ProofBase Inv LiqProof MachineProof CustomProof.

Lemma x_run_app_one c ops o : forall e e1 outs e2 r,
  x_run c e ops = Done (e1, outs) -> x_step c e1 o = Done (e2, r) -> x_run c e (ops ++ [o]) = Done (e2, outs ++ [r]).
Proof.
  induction ops as [|a ops IH]; intros e e1 outs e2 r H H1; cbn [app x_run] in *.
  - injection H as -> <-. rewrite H1. reflexivity.
  - apply bind_done in H as [[e3 r3] [H3 H]]. apply bind_done in H as [[e4 rs] [H4 H]]. injection H as -> <-.
    rewrite H3. cbn [bind]. rewrite (IH _ _ _ _ _ H4 H1). reflexivity.
Qed.

Lemma mixed_step c e o e' r : mixed_reachable c e -> x_step c e o = Done (e', r) -> mixed_reachable c e'.
Proof.
  intros (ops & outs & e0 & Hi & Hr) H. exists (ops ++ [o]), (outs ++ [r]), e0. split; [exact Hi|].
  eapply x_run_app_one; eassumption.
Qed.

Lemma mixed_ordinary c e o e' r :
  valid_config c -> mixed_reachable c e -> x_step c e (XCall o) = Done (e', r) -> m_call c (machine_of e) o = (machine_of e', r).
Proof.
  intros V M H. destruct (mixed_inv _ _ V M) as (I & He & _). destruct (mixed_inv _ _ V (mixed_step _ _ _ _ _ M H)) as (I' & _).
  rewrite (view_of _ _ I), (view_of _ _ I'). apply call_view; assumption.
Qed.

Lemma mixed_update c e k e' r :
  valid_config c -> mixed_reachable c e -> x_step c e (XUpdate k) = Done (e', r) ->
  exists ms, cu_market k (ex_ms e) = Done ms /\ x_moved c k ms (machine_of e) = (machine_of e', r).
Proof.
  intros V M H. destruct (mixed_inv _ _ V M) as (I & He & _). destruct (mixed_inv _ _ V (mixed_step _ _ _ _ _ M H)) as (I' & _).
  rewrite (view_of _ _ I), (view_of _ _ I'). apply x_update_view; assumption.
Qed.

Lemma mixed_check c e k e' r :
  valid_config c -> mixed_reachable c e -> x_step c e (XCheck k) = Done (e', r) ->
  machine_of e' = x_meet_all c k (machine_of e) /\ r = Ok OutUnit /\ ex_updates e' = x_reports c k (ex_active e) /\
  (cu_can k = true -> 0 <= wallet_of e').
Proof.
  intros V M H. destruct (mixed_inv _ _ V M) as (I & He & _). destruct (mixed_inv _ _ V (mixed_step _ _ _ _ _ M H)) as (I' & _).
  rewrite (view_of _ _ I), (view_of _ _ I'). cbn [x_step] in H. apply bind_done in H as (e1 & H & E). injection E as -> <-.
  destruct (x_check_view _ _ _ _ V I H) as [H1 H2]. split; [exact H1|]. split; [reflexivity|]. split; [exact H2|].
  intros Hc. apply x_check_spec in H as [(Hc' & _)|(_ & e1 & act & _ & _ & _ & -> & Hw)]; [congruence|]. exact Hw.
Qed.

Lemma mixed_answers c e k e' r o :
  x_step c e (XCheck k) = Done (e', r) -> cu_can k = true -> In o (ex_active e) -> sensible k o.
Proof. intros H. cbn [x_step] in H. apply bind_done in H as (e1 & H & E). eapply x_check_answers; exact H. Qed.

Lemma mixed_books c e :
  valid_config c -> mixed_reachable c e ->
  debit_sum (ex_acc e) = credit_sum (ex_acc e) /\
  ex_om e = ex_active e /\ NoDup (map lo_id (ex_active e)) /\ Z.of_nat (length (ex_active e)) <= c_max c /\
  (forall o, In o (ex_active e) -> 0 < lo_rem o /\ 0 < lo_price o /\ 0 <= lo_id o < ex_next_id e).
Proof.
  intros V M. destruct (mixed_inv _ _ V M) as (I & _ & D). split; [exact D|]. split; [apply (inv_books _ _ I)|].
  split; [apply (inv_nodup _ _ I)|]. split; [apply (inv_len _ _ I)|].
  intros o Ho. destruct (inv_ok _ _ I o Ho) as (H1 & H2 & _). split; [exact H1|]. split; [exact H2|]. apply (inv_ids _ _ I o Ho).
Qed.

Lemma ordinary_is_mixed c ops : forall e, x_run c e (map XCall ops) = run c e ops.
Proof.
  induction ops as [|o ops IH]; intros e; [reflexivity|]. cbn [map x_run run x_step].
  destruct (step c e o) as [[e1 r]|w]; cbn [bind]; [rewrite IH|]; reflexivity.
Qed.
