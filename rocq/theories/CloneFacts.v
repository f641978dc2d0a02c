(** Concrete copies. *)
From Verif Require Import ProofBase Spec SpecConfig Clone SpecClone Scenario ScenarioClone CloneProof.

Lemma copy_example dbg : valid_config (demo_cfg Linear dbg) /\
  match with_copies (demo_cfg Linear dbg) two_orders with
  | Done (x, _) =>
      x_reachable (demo_cfg Linear dbg) x /\ resting x = 2 /\
      (exists x1 o, x_call (demo_cfg Linear dbg) x (OpLimit Buy (d 98) (d 1) 9) = Done (x1, Ok o)) /\
      (exists x2, x_call (demo_cfg Linear dbg) (x_clone x) (OpLimit Buy (d 98) (d 1) 9) = Done (x2, Err EMaxNumberOfActiveOrders)) /\
      (exists x3, x_call (demo_cfg Linear dbg) x (OpUpdate idle_trade) = Done (x3, Ok (OutUpdates []))) /\
      (if dbg then x_call (demo_cfg Linear dbg) (x_clone x) (OpUpdate idle_trade) = Panic PIdsCapacityDebug
       else exists x4, x_call (demo_cfg Linear dbg) (x_clone x) (OpUpdate idle_trade) = Done (x4, Ok (OutUpdates [])))
  | Panic _ => False
  end.
Proof.
  split; [destruct dbg; constructor; vm_compute; try discriminate; split; discriminate|]. destruct (with_copies (demo_cfg Linear dbg) two_orders) as [[x outs]|p] eqn:E.
  2:{ exfalso. destruct dbg; vm_compute in E; discriminate. }
  assert (R : x_reachable (demo_cfg Linear dbg) x).
  { unfold with_copies in E. apply bind_done in E as [x0 [H0 H]]. exists two_orders, outs, x0. auto. }
  split; [exact R|]. clear R. destruct dbg; vm_compute in E; injection E as <- _.
  - repeat split; try (eexists; try eexists); vm_compute; reflexivity.
  - repeat split; try (eexists; try eexists); vm_compute; reflexivity.
Qed.

Lemma not_interchangeable :
  ~ (forall c x o, valid_config c -> x_reachable c x -> seen (x_call c (x_clone x) o) = seen (x_call c x o)).
Proof.
  intros H. destruct (copy_example false) as [V E].
  destruct (with_copies (demo_cfg Linear false) two_orders) as [[x outs]|]; [|contradiction].
  destruct E as (R & _ & (x1 & o & E1) & (x2 & E2) & _).
  specialize (H _ _ (OpLimit Buy (d 98) (d 1) 9) V R). rewrite E1, E2 in H. discriminate.
Qed.

Lemma copy_growth n : (n = 4 \/ n = 8) -> valid_config (with_limit n) /\
  match with_copies (with_limit n) two_orders with
  | Done (x, _) =>
      x_reachable (with_limit n) x /\
      match x_call (with_limit n) x (OpUpdate filling_trade), x_call (with_limit n) (x_clone x) (OpUpdate filling_trade) with
      | Done (x1, Ok (OutUpdates l)), Done (x2, Ok (OutUpdates l2)) => n = 4 /\ completed l = 1%nat /\ l2 = l /\ x_ex x2 = x_ex x1 /\ cap_ids (x_caps x2) = 4
      | Done (_, Ok (OutUpdates l)), Panic PIdsCapacityDebug => n = 8 /\ completed l = 1%nat
      | _, _ => False
      end
  | Panic _ => False
  end.
Proof.
  intros Hn. split; [destruct Hn as [-> | ->]; constructor; vm_compute; try discriminate; split; discriminate|].
  destruct (with_copies (with_limit n) two_orders) as [[x outs]|p] eqn:E.
  2:{ exfalso. destruct Hn as [-> | ->]; vm_compute in E; discriminate. }
  assert (R : x_reachable (with_limit n) x).
  { unfold with_copies in E. apply bind_done in E as [x0 [H0 H]]. exists two_orders, outs, x0. auto. }
  split; [exact R|]. clear R. destruct Hn as [-> | ->]; vm_compute in E; injection E as <- _; vm_compute; auto 6.
Qed.
