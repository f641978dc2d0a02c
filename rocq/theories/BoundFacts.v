(** Glue for property C64. *)
From Verif Require Import ProofBase Spec SpecConfig SpecBound BoundProof NoOverflow Scenario ScenarioPanic Width Fixed SpecFixed ScenarioFixed ScenarioBound.

Lemma bounded_calls w c P V T ops :
  valid_config c -> config_in c P V T (2 ^ (w - 1)) -> volume ops <= V ->
  (forall o, In o ops -> call_in P T (2 ^ (w - 1)) o) -> affordable c P V (2 ^ (w - 1)) ops ->
  10001 * (Z.of_nat (length ops) + 1) < 2 ^ 64 ->
  w_play w c ops = Fine (u_play c ops).
Proof.
  intros Vc Ci HV Hin Ha HN. apply (no_overflow w P T V c Vc Ci (wealth c P V)); try assumption. unfold wealth. lia.
Qed.

Lemma everyday_fits c ops :
  valid_config c -> everyday_config c -> everyday_calls ops -> w_play 64 c ops = Fine (u_play c ops).
Proof.
  intros Vc E (Hin & HV & Hn & Hl). pose proof (vc_start _ Vc) as Hst. pose proof (volume_nonneg ops). pose proof (submissions_nonneg ops).
  destruct E. apply (bounded_calls 64 c (100000 * 100000) (1000 * 100000) 4000000000000000000); try assumption.
  - change (2 ^ (64 - 1)) with 9223372036854775808. constructor; rewrite ?ed_scale; try assumption; lia.
  - unfold affordable, wealth, weight. rewrite ed_kind, ed_scale. change (2 ^ (64 - 1)) with 9223372036854775808.
    assert (submissions ops * (100000 * c_start c + 100000 * 100000 * (2 * (1000 * 100000))) <= 200000 * (100000 * (1000000 * 100000) + 100000 * 100000 * (2 * (1000 * 100000)))).
    { apply Z.mul_le_mono_nonneg; lia. }
    lia.
  - change (2 ^ 64) with 18446744073709551616. lia.
Qed.

Lemma demo_bounded :
  valid_config (demo_cfg Linear true) /\ config_in (demo_cfg Linear true) (d 161) (d 15) 6 (2 ^ (31 - 1)) /\ volume demo_ops <= d 15 /\
  (forall o, In o demo_ops -> call_in (d 161) 6 (2 ^ (31 - 1)) o) /\ affordable (demo_cfg Linear true) (d 161) (d 15) (2 ^ (31 - 1)) demo_ops /\
  ~ affordable (demo_cfg Linear true) (d 161) (d 15) (2 ^ (30 - 1)) demo_ops /\
  10001 * (Z.of_nat (length demo_ops) + 1) < 2 ^ 64 /\ returns (w_play 31 (demo_cfg Linear true) demo_ops) = true.
Proof.
  split; [apply demo_valid; [cbn; tauto | reflexivity | vm_compute; split; discriminate]|].
  split; [constructor; vm_compute; repeat split; discriminate|]. split; [vm_compute; discriminate|].
  split.
  { intros o H. cbn in H. repeat (destruct H as [<-|H]; [cbn [call_in feed_in quote taker]; unfold bba_in, price_in; cbn [bb_bid bb_ask bb_ts tr_price tr_ts]; try exact I; match goal with |- context [In] => idtac | _ => vm_compute; repeat split; discriminate end |]); try contradiction.
    split; [vm_compute; repeat split; discriminate|]. split; [|vm_compute; reflexivity].
    intros t [<-|[<-|[]]]; vm_compute; repeat split; discriminate. }
  split; [vm_compute; reflexivity|]. split; [vm_compute; discriminate|]. split; vm_compute; reflexivity.
Qed.

Lemma btc_bounded :
  valid_config btc_cfg /\ everyday_config btc_cfg /\ everyday_calls btc_ops /\ returns (w_play 64 btc_cfg btc_ops) = true.
Proof.
  split; [constructor; vm_compute; repeat split; try reflexivity; discriminate|].
  split; [constructor; vm_compute; repeat split; try reflexivity; discriminate|].
  split; [|vm_compute; reflexivity].
  split; [|vm_compute; repeat split; discriminate].
  intros o H. cbn in H. repeat (destruct H as [<-|H]; [cbn [call_in feed_in]; unfold bba_in, price_in; cbn [bb_bid bb_ask bb_ts tr_price tr_ts]; try exact I; try (vm_compute; repeat split; discriminate) |]); try contradiction.
Qed.
