(** The default contract specification and the exchanges for tests. *)
From Verif Require Import Base Types Filters Accounting Currency OrderBook OrderMargin MarketUpdate Exchange Untracked Helpers Defaults
  Spec SpecConfig SpecDefaults Scenario ScenarioDefaults HelpersProof.

Lemma scaled_exact m D k i : (k <= D)%nat -> try_from_scaled m (10 ^ Z.of_nat D) i k = Some (i * 10 ^ Z.of_nat (D - k)).
Proof.
  intros H. pose proof (new_exact m D k i H) as E. unfold currency_new in E.
  destruct (try_from_scaled m _ i k); [injection E as ->; reflexivity|discriminate].
Qed.
Lemma scale_split D : (4 <= D)%nat -> exists t, 0 < t /\ 10 ^ Z.of_nat D = 10000 * t /\ 10 ^ Z.of_nat (D - 4) = t.
Proof.
  intros H. exists (10 ^ Z.of_nat (D - 4)). split; [apply ten_pos|]. split; [|reflexivity].
  replace (Z.of_nat D) with (4 + Z.of_nat (D - 4)) by lia. rewrite Z.pow_add_r by lia. reflexivity.
Qed.
Lemma one_of s : 0 < s -> Z.quot (s * s) s = s. Proof. intros. apply Z.quot_mul. lia. Qed.
Lemma half_of t : 0 < t -> Z.quot (10000 * t * (10000 * t)) (2 * (10000 * t)) = 5000 * t.
Proof. intros. replace (10000 * t * (10000 * t)) with (5000 * t * (2 * (10000 * t))) by lia. apply Z.quot_mul. lia. Qed.

Lemma default_meant m D : (4 <= D)%nat -> exists ct, contract_default m D = Done ct /\ meant (10 ^ Z.of_nat D) ct.
Proof.
  intros H. unfold contract_default. cbv zeta. rewrite !scaled_exact by lia.
  destruct (scale_split D H) as (t & P & -> & ->). unfold leverage_new. change (1 <? 1) with false. cbn [unwrap_ok unwrap_some bind].
  unfold ddiv at 1. replace (2 * (10000 * t) =? 0) with false by lia. cbn [bind]. rewrite half_of by lia.
  unfold contract_new. replace ((10000 * t <? 5000 * t) || (5000 * t <=? 0)) with false by lia.
  unfold init_margin_req, ddiv. replace (1 * (10000 * t) =? 0) with false by lia. cbn [bind unwrap_ok].
  rewrite Z.mul_1_l, one_of by lia. unfold dmul. rewrite (Z.mul_comm (10000 * t) (5000 * t)), Z.quot_mul by lia.
  eexists. split; [reflexivity|]. unfold meant. cbn [ct_imr ct_mm ct_maker ct_taker ct_pf ct_qf].
  repeat (split; [lia|]). split; reflexivity.
Qed.

Lemma default_none m : contract_default m 0 = Panic PDefaultFee \/ contract_default m 0 = Panic PDefaultContract.
Proof. destruct m; vm_compute; auto. Qed.
Lemma default_small m D : (1 <= D <= 3)%nat ->
  match m with
  | Refuse => contract_default m D = Panic PDefaultFee
  | CutOff => exists ct, contract_default m D = Done ct /\ meant_free (10 ^ Z.of_nat D) ct
  end.
Proof.
  intros [A B]. destruct D as [|[|[|[|D]]]]; try lia; destruct m; try (vm_compute; reflexivity);
    (eexists; split; [vm_compute; reflexivity|]; vm_compute; repeat split).
Qed.
Lemma default_exactly m D : (exists ct, contract_default m D = Done ct /\ meant (10 ^ Z.of_nat D) ct) <-> (4 <= D)%nat.
Proof.
  split; [|apply default_meant]. intros (ct & E & M). destruct (Compare_dec.le_lt_dec 4 D) as [|L]; [assumption|exfalso].
  destruct D as [|D].
  - destruct (default_none m) as [F|F]; rewrite F in E; discriminate.
  - pose proof (default_small m (S D) ltac:(lia)) as F. destruct m; [rewrite F in E; discriminate|].
    destruct F as (ct' & F & M'). rewrite E in F. injection F as <-. destruct M as (_ & _ & M & _), M' as (_ & _ & M' & _).
    rewrite M' in M. pose proof (ten_pos (S D)). lia.
Qed.

Lemma default_valid m D k dbg start max sample ct c : contract_default m D = Done ct ->
  config_new k (10 ^ Z.of_nat D) dbg start max ct sample = Ok c -> 0 <= max <= 10000 -> valid_config c.
Proof.
  intros E F B. pose proof (ten_pos D) as P.
  assert (S : ct_imr ct = 10 ^ Z.of_nat D /\ 2 * ct_mm ct = 10 ^ Z.of_nat D /\
    pf_tick (ct_pf ct) = 10 ^ Z.of_nat D /\ qf_tick (ct_qf ct) = 10 ^ Z.of_nat D).
  { destruct (Compare_dec.le_lt_dec 4 D) as [G|L].
    - destruct (default_meant m D G) as (ct' & E' & I & M & _ & _ & PF & QF). rewrite E in E'. injection E' as <-. rewrite PF, QF. auto.
    - destruct D as [|D]; [destruct (default_none m) as [Q|Q]; rewrite Q in E; discriminate|].
      pose proof (default_small m (S D) ltac:(lia)) as Q. destruct m; [rewrite Q in E; discriminate|].
      destruct Q as (ct' & E' & I & M & _ & _ & PF & QF). rewrite E in E'. injection E' as <-. rewrite PF, QF. auto. }
  destruct S as (I & M & T & U). unfold config_new in F. destruct (max =? 0); [discriminate|].
  destruct (Z.leb_spec start 0); [discriminate|]. injection F as <-.
  constructor; cbn [c_scale c_spec c_start c_max]; try lia.
Qed.

Lemma default_price m D ct p mark : contract_default m D = Done ct -> 0 <= mark ->
  (validate_limit_price (10 ^ Z.of_nat D) (ct_pf ct) p mark = Done (Ok tt) <-> 0 < p <= 2 * mark /\ whole (10 ^ Z.of_nat D) p).
Proof.
  intros E Hm. pose proof (ten_pos D) as P.
  assert (S : ct_pf ct = {| pf_min := None; pf_max := None; pf_tick := 10 ^ Z.of_nat D; pf_up := 2 * 10 ^ Z.of_nat D; pf_down := 0 |}).
  { revert E. unfold contract_default. cbv zeta. destruct leverage_new; cbn [unwrap_ok bind]; [|discriminate].
    destruct ddiv; cbn [bind]; [|discriminate]. do 2 (destruct try_from_scaled; cbn [unwrap_some bind]; [|discriminate]).
    unfold contract_new. destruct (_ || _); cbn [bind unwrap_ok]; [discriminate|].
    destruct init_margin_req; cbn [bind unwrap_ok]; [|discriminate]. intros [= <-]. reflexivity. }
  rewrite S. unfold validate_limit_price, whole. cbn [pf_min pf_max pf_tick pf_up pf_down].
  set (s := 10 ^ Z.of_nat D) in *. destruct (Z.leb_spec p 0); [split; [discriminate|lia]|].
  unfold drem. replace (s =? 0) with false by lia. cbn [bind]. rewrite Z.sub_0_r.
  unfold dmul. replace (mark * (2 * s)) with (2 * mark * s) by lia. rewrite Z.quot_mul by lia.
  replace (2 * s =? 0) with false by lia. cbn [negb]. rewrite !andb_true_r, !andb_false_r.
  destruct (Z.eqb_spec (Z.rem p s) 0) as [R|R]; cbn [negb].
  - apply Z.rem_divide in R; [|lia]. destruct (Z.ltb_spec (2 * mark) p).
    + split; [discriminate|lia].
    + split; [intros _; split; [lia|exact R]|reflexivity].
  - split; [discriminate|]. intros [_ W]. destruct R. apply Z.rem_divide; [lia|exact W].
Qed.
Lemma default_quantity m D ct q : contract_default m D = Done ct ->
  (validate_order_quantity (ct_qf ct) q = Done (Ok tt) <-> q <> 0 /\ whole (10 ^ Z.of_nat D) q).
Proof.
  intros E. pose proof (ten_pos D) as P.
  assert (S : ct_qf ct = {| qf_min := None; qf_max := None; qf_tick := 10 ^ Z.of_nat D |}).
  { revert E. unfold contract_default. cbv zeta. destruct leverage_new; cbn [unwrap_ok bind]; [|discriminate].
    destruct ddiv; cbn [bind]; [|discriminate]. do 2 (destruct try_from_scaled; cbn [unwrap_some bind]; [|discriminate]).
    unfold contract_new. destruct (_ || _); cbn [bind unwrap_ok]; [discriminate|].
    destruct init_margin_req; cbn [bind unwrap_ok]; [|discriminate]. intros [= <-]. reflexivity. }
  rewrite S. unfold validate_order_quantity, whole. cbn [qf_min qf_max qf_tick].
  destruct (Z.eqb_spec q 0); [split; [discriminate|tauto]|].
  unfold drem. replace (10 ^ Z.of_nat D =? 0) with false by lia. cbn [bind]. rewrite Z.sub_0_r.
  destruct (Z.eqb_spec (Z.rem q (10 ^ Z.of_nat D)) 0) as [R|R]; cbn [negb].
  - apply Z.rem_divide in R; [|lia]. tauto.
  - split; [discriminate|]. intros [_ W]. destruct R. apply Z.rem_divide; [lia|exact W].
Qed.

(** ** The exchanges for tests *)
Lemma mock_linear_is m dbg : mock_exchange_linear m dbg = Done (mock_cfg Linear dbg (1000 * M5) 10 1000).
Proof. destruct m; vm_compute; reflexivity. Qed.
Lemma mock_tracked_is m dbg start : mock_exchange_linear_with_account_tracker m dbg start =
  if 0 <? start then Done (mock_cfg Linear dbg start 200 1000) else Panic PMockSetup.
Proof.
  unfold mock_exchange_linear_with_account_tracker, mock_linear. destruct m; cbn -[Z.leb Z.ltb];
  rewrite (Z.ltb_antisym start 0); destruct (start <=? 0); reflexivity.
Qed.
Lemma mock_inverse_is m dbg start : mock_exchange_inverse m dbg start =
  if 0 <? start then Done (mock_cfg Inverse dbg start 200 M5) else Panic PMockSetup.
Proof.
  unfold mock_exchange_inverse. destruct m; cbn -[Z.leb Z.ltb];
  rewrite (Z.ltb_antisym start 0); destruct (start <=? 0); reflexivity.
Qed.
Lemma mock_valid k dbg start max qtick : 0 < start -> 0 <= max <= 10000 -> qtick <> 0 -> valid_config (mock_cfg k dbg start max qtick).
Proof. intros. constructor; cbn; unfold M5; lia. Qed.
Lemma mock_all_valid m dbg start c :
  mock_exchange_linear m dbg = Done c \/ mock_exchange_linear_with_account_tracker m dbg start = Done c \/
  mock_exchange_inverse m dbg start = Done c -> valid_config c.
Proof.
  rewrite mock_linear_is, mock_tracked_is, mock_inverse_is. intros [E|[E|E]].
  - injection E as <-. apply mock_valid; unfold M5; lia.
  - destruct (Z.ltb_spec 0 start); [|discriminate]. injection E as <-. apply mock_valid; lia.
  - destruct (Z.ltb_spec 0 start); [|discriminate]. injection E as <-. apply mock_valid; unfold M5; lia.
Qed.

Lemma mock_crash m dbg : exists c e0 e outs, mock_exchange_linear m dbg = Done c /\ q_init c = Done e0 /\
  q_run c e0 mock_ops = Done (e, outs) /\ q_step c e (OpCancel (ByOrderId 1)) = Panic PCancelMargin.
Proof.
  exists (mock_cfg Linear dbg (1000 * M5) 10 1000). rewrite mock_linear_is. destruct dbg;
  (eexists; eexists; eexists; split; [reflexivity|]; split; [vm_compute; reflexivity|]; split; vm_compute; reflexivity).
Qed.
Lemma mock_runs m dbg : exists c e0 e outs, mock_exchange_linear m dbg = Done c /\ q_init c = Done e0 /\
  q_run c e0 mock_calm = Done (e, outs) /\ length (filter is_ok outs) = 5%nat.
Proof.
  exists (mock_cfg Linear dbg (1000 * M5) 10 1000). rewrite mock_linear_is. destruct dbg;
  (eexists; eexists; eexists; split; [reflexivity|]; split; [vm_compute; reflexivity|]; split; vm_compute; reflexivity).
Qed.
