(** Filters, configuration and market data validation decide as documented. *)
From Verif Require Import ProofBase SpecRules.

Lemma drem_spec a b : b <> 0 -> drem a b = Done (Z.rem a b).
Proof. intros. unfold drem. destruct (Z.eqb_spec b 0); [contradiction | reflexivity]. Qed.
Lemma rem_divide a b : b <> 0 -> (Z.rem a b =? 0) = true <-> (b | a).
Proof. intros. rewrite Z.eqb_eq. apply Z.rem_divide; assumption. Qed.

Lemma above_dec m x : match m with Some v => v <? x | None => false end = true <-> above m x.
Proof.
  unfold above. destruct m as [v|].
  - rewrite Z.ltb_lt. split; [eauto | intros (w & E & H); injection E as ->; exact H].
  - split; [discriminate | intros (w & E & _); discriminate].
Qed.
Lemma below_dec m x : match m with Some v => x <? v | None => false end = true <-> below m x.
Proof.
  unfold below. destruct m as [v|].
  - rewrite Z.ltb_lt. split; [eauto | intros (w & E & H); injection E as ->; exact H].
  - split; [discriminate | intros (w & E & _); discriminate].
Qed.

(** All facts that decide the verdict at once. *)
Lemma quantity_verdict f q :
  qf_tick f <> 0 ->
  validate_order_quantity f q =
    Done (if q =? 0 then Err QuantityTooLow
          else if match qf_max f with Some m => m <? q | None => false end then Err QuantityTooHigh
          else if match qf_min f with Some m => q <? m | None => false end then Err QuantityTooLow
          else if Z.rem (q - origin (qf_min f)) (qf_tick f) =? 0 then Ok tt else Err InvalidQuantityStepSize).
Proof.
  intros Ht. unfold validate_order_quantity, origin. rewrite drem_spec by exact Ht. cbn [bind].
  destruct (q =? 0); [reflexivity|]. destruct (match qf_max f with Some _ => _ | None => _ end); [reflexivity|].
  destruct (qf_min f) as [m|].
  - destruct (q <? m); [reflexivity|]. destruct (Z.rem (q - m) (qf_tick f) =? 0); reflexivity.
  - destruct (Z.rem (q - 0) (qf_tick f) =? 0); reflexivity.
Qed.

Ltac cases_of Ht :=
  repeat match goal with
  | |- context [if ?b then _ else _] =>
      let E := fresh "E" in destruct b eqn:E
  end;
  repeat match goal with
  | H : match ?m with Some v => v <? ?x | None => false end = true |- _ => apply above_dec in H
  | H : match ?m with Some v => ?x <? v | None => false end = true |- _ => apply below_dec in H
  | H : match ?m with Some v => v <? ?x | None => false end = false |- _ =>
      let K := fresh "K" in assert (K : ~ above m x) by (rewrite <- above_dec, H; discriminate); clear H
  | H : match ?m with Some v => ?x <? v | None => false end = false |- _ =>
      let K := fresh "K" in assert (K : ~ below m x) by (rewrite <- below_dec, H; discriminate); clear H
  | H : (Z.rem ?a ?b =? 0) = true |- _ => apply (rem_divide a b Ht) in H
  | H : (Z.rem ?a ?b =? 0) = false |- _ =>
      let K := fresh "K" in assert (K : ~ (b | a)) by (rewrite <- (rem_divide a b Ht), H; discriminate); clear H
  | H : (?a =? ?b) = true |- _ => apply Z.eqb_eq in H
  | H : (?a =? ?b) = false |- _ => apply Z.eqb_neq in H
  end.

Lemma quantity_filter_exact f q :
  qf_tick f <> 0 ->
  exists v, validate_order_quantity f q = Done v /\
    (v = Ok tt <-> quantity_allowed f q) /\
    (v = Err QuantityTooHigh <-> q <> 0 /\ above (qf_max f) q) /\
    (v = Err QuantityTooLow <-> q = 0 \/ (~ above (qf_max f) q /\ below (qf_min f) q)) /\
    (v = Err InvalidQuantityStepSize <->
       q <> 0 /\ ~ above (qf_max f) q /\ ~ below (qf_min f) q /\ ~ (qf_tick f | q - origin (qf_min f))).
Proof.
  intros Ht. rewrite (quantity_verdict _ _ Ht). eexists. split; [reflexivity|]. unfold quantity_allowed.
  cases_of Ht; repeat split; intros; try congruence; try tauto.
Qed.

Lemma price_verdict s f p mark :
  pf_tick f <> 0 ->
  validate_limit_price s f p mark =
    Done (if p <=? 0 then Err LimitPriceBelowMin
          else if match pf_max f with Some m => m <? p | None => false end then Err LimitPriceAboveMax
          else if match pf_min f with Some m => p <? m | None => false end then Err LimitPriceBelowMin
          else if Z.rem (p - origin (pf_min f)) (pf_tick f) =? 0 then
            if (dmul s mark (pf_up f) <? p) && negb (pf_up f =? 0) then Err LimitPriceAboveMultiple
            else if (p <? dmul s mark (pf_down f)) && negb (pf_down f =? 0) then Err LimitPriceBelowMultiple
            else Ok tt
          else Err InvalidOrderPriceStepSize).
Proof.
  intros Ht. unfold validate_limit_price, origin. rewrite drem_spec by exact Ht. cbn [bind].
  destruct (p <=? 0); [reflexivity|]. destruct (match pf_max f with Some _ => _ | None => _ end); [reflexivity|].
  destruct (pf_min f) as [m|].
  - destruct (p <? m); [reflexivity|]. destruct (Z.rem (p - m) (pf_tick f) =? 0); [|reflexivity]. cbn [negb].
    destruct (_ && _); [reflexivity|]. destruct (_ && _); reflexivity.
  - destruct (Z.rem (p - 0) (pf_tick f) =? 0); [|reflexivity]. cbn [negb].
    destruct (_ && _); [reflexivity|]. destruct (_ && _); reflexivity.
Qed.

Lemma above_band_dec s f mark p :
  0 < s -> 0 <= mark -> 0 <= pf_up f ->
  (dmul s mark (pf_up f) <? p) && negb (pf_up f =? 0) = true <-> above_band s f mark p.
Proof.
  intros Hs Hm Hu. unfold above_band, dmul. rewrite andb_true_iff, Z.ltb_lt, negb_true_iff, Z.eqb_neq.
  rewrite Z.quot_div_nonneg by nia. split.
  - intros [H1 H2]. split; [exact H2|]. pose proof (Z.mul_succ_div_gt (mark * pf_up f) s Hs). nia.
  - intros [H1 H2]. split; [|exact H1]. apply Z.div_lt_upper_bound; lia.
Qed.
Lemma below_band_dec s f mark p :
  0 < s -> 0 <= mark -> 0 <= pf_down f ->
  (p <? dmul s mark (pf_down f)) && negb (pf_down f =? 0) = true <-> below_band s f mark p.
Proof.
  intros Hs Hm Hu. unfold below_band, dmul. rewrite andb_true_iff, Z.ltb_lt, negb_true_iff, Z.eqb_neq.
  rewrite Z.quot_div_nonneg by nia. split.
  - intros [H1 H2]. split; [exact H2|]. pose proof (Z.mul_div_le (mark * pf_down f) s Hs). nia.
  - intros [H1 H2]. split; [|exact H1].
    assert (p + 1 <= mark * pf_down f / s) by (apply Z.div_le_lower_bound; lia). lia.
Qed.

Lemma price_filter_exact s f p mark :
  0 < s -> pf_tick f <> 0 -> 0 <= mark -> 0 <= pf_up f -> 0 <= pf_down f ->
  exists v, validate_limit_price s f p mark = Done v /\
    (v = Ok tt <-> price_allowed s f mark p) /\
    (v = Err LimitPriceAboveMax <-> 0 < p /\ above (pf_max f) p) /\
    (v = Err LimitPriceBelowMin <-> p <= 0 \/ (~ above (pf_max f) p /\ below (pf_min f) p)) /\
    (v = Err InvalidOrderPriceStepSize <->
       0 < p /\ ~ above (pf_max f) p /\ ~ below (pf_min f) p /\ ~ (pf_tick f | p - origin (pf_min f))) /\
    (v = Err LimitPriceAboveMultiple <-> price_static f p /\ above_band s f mark p) /\
    (v = Err LimitPriceBelowMultiple <->
       price_static f p /\ ~ above_band s f mark p /\ below_band s f mark p).
Proof.
  intros Hs Ht Hm Hu Hd. rewrite (price_verdict _ _ _ _ Ht). eexists. split; [reflexivity|].
  unfold price_allowed, price_static.
  pose proof (above_band_dec s f mark p Hs Hm Hu) as HA. pose proof (below_band_dec s f mark p Hs Hm Hd) as HB.
  destruct (Z.leb_spec p 0).
  { cases_of Ht; repeat split; intros; try congruence; try tauto; try lia. }
  assert (HA' : (dmul s mark (pf_up f) <? p) && negb (pf_up f =? 0) = false <-> ~ above_band s f mark p).
  { rewrite <- HA. symmetry. apply not_true_iff_false. }
  assert (HB' : (p <? dmul s mark (pf_down f)) && negb (pf_down f =? 0) = false <-> ~ below_band s f mark p).
  { rewrite <- HB. symmetry. apply not_true_iff_false. }
  set (A := (dmul s mark (pf_up f) <? p) && negb (pf_up f =? 0)) in *.
  set (B := (p <? dmul s mark (pf_down f)) && negb (pf_down f =? 0)) in *.
  clearbody A B. generalize dependent (above_band s f mark p). generalize dependent (below_band s f mark p).
  intros PB HB HB' PA HA HA'. assert (~ p <= 0) by lia. destruct A, B;
  cases_of Ht; repeat split; intros; try congruence; try tauto.
Qed.

(** Constructors. *)
Lemma quantity_filter_new_exact min max tick :
  tick <> 0 ->
  quantity_filter_new min max tick =
    Done (match min with
          | Some m => if Z.rem m tick =? 0 then Ok {| qf_min := min; qf_max := max; qf_tick := tick |}
                      else Err InvalidMinQuantity
          | None => Ok {| qf_min := min; qf_max := max; qf_tick := tick |} end).
Proof.
  intros Ht. unfold quantity_filter_new. destruct min as [m|]; [rewrite drem_spec by exact Ht|]; cbn [bind].
  - destruct (Z.rem m tick =? 0); cbn [negb]; [|reflexivity]. destruct (Z.eqb_spec tick 0); [contradiction|reflexivity].
  - destruct (Z.eqb_spec tick 0); [contradiction|reflexivity].
Qed.

Lemma quantity_new_rules min max tick :
  tick <> 0 ->
  exists v, quantity_filter_new min max tick = Done v /\
    (v = Ok {| qf_min := min; qf_max := max; qf_tick := tick |} <-> (tick | origin min)) /\
    (v = Err InvalidMinQuantity <-> ~ (tick | origin min)).
Proof.
  intros Ht. rewrite quantity_filter_new_exact by exact Ht. eexists. split; [reflexivity|].
  destruct min as [m|]; cbn [origin].
  - pose proof (rem_divide m tick Ht). destruct (Z.rem m tick =? 0); split; split; intros; try congruence; try tauto.
    + rewrite <- H in H0. discriminate.
    + intros D. apply H in D. discriminate.
  - pose proof (Z.divide_0_r tick). split; split; intros; try congruence; try tauto.
Qed.

Lemma price_new_rules s min max tick up down :
  tick <> 0 ->
  exists v, price_filter_new s min max tick up down = Done v /\
    (v = Ok {| pf_min := min; pf_max := max; pf_tick := tick; pf_up := up; pf_down := down |}
       <-> (tick | origin min) /\ s < up /\ down < s) /\
    (v = Err InvalidMinPrice <-> ~ (tick | origin min)) /\
    (v = Err InvalidUpMultiplier <-> (tick | origin min) /\ up <= s) /\
    (v = Err InvalidDownMultiplier <-> (tick | origin min) /\ s < up /\ s <= down).
Proof.
  intros Ht. unfold price_filter_new.
  assert (Hm : exists b, (match min with Some m => r <- drem m tick ;; Done (negb (r =? 0)) | None => Done false end) = Done b /\
                         (b = false <-> (tick | origin min))).
  { destruct min as [m|]; cbn [origin].
    - rewrite drem_spec by exact Ht. cbn [bind]. eexists. split; [reflexivity|].
      rewrite negb_false_iff. apply rem_divide; exact Ht.
    - eexists. split; [reflexivity|]. split; [intros _; apply Z.divide_0_r | reflexivity]. }
  destruct Hm as (b & -> & Hb). cbn [bind]. destruct (Z.eqb_spec tick 0); [contradiction|].
  assert (Hb' : b = true <-> ~ (tick | origin min)) by (rewrite <- Hb; destruct b; split; congruence || (intros H; exfalso; apply H; reflexivity)).
  destruct b; [|destruct (Z.leb_spec up s); [|destruct (Z.leb_spec s down)]];
  (eexists; split; [reflexivity|]); repeat split; intros; try congruence; try tauto; try lia;
  try (destruct Hb' as [Hb1 Hb2]; specialize (Hb1 eq_refl); tauto).
Qed.

(** Market data. *)
Lemma min_price_spec m p :
  (exists x, enforce_min_price m p = x) /\
  (enforce_min_price m p = Ok tt <-> forall v, m = Some v -> v <> 0 -> v <= p).
Proof.
  split; [eauto|]. unfold enforce_min_price. destruct m as [v|].
  - destruct (Z.ltb_spec p v), (Z.eqb_spec v 0); cbn [andb negb];
      (split; [intros H0 w E Hw; injection E as <-; lia || discriminate | intros H0; try reflexivity; exfalso; specialize (H0 v eq_refl); lia]).
  - split; [intros _ v E; discriminate | reflexivity].
Qed.
Lemma max_price_spec m p :
  enforce_max_price m p = Ok tt <-> forall v, m = Some v -> v <> 0 -> p <= v.
Proof.
  unfold enforce_max_price. destruct m as [v|].
  - destruct (Z.ltb_spec v p), (Z.eqb_spec v 0); cbn [andb negb];
      (split; [intros H0 w E Hw; injection E as <-; lia || discriminate | intros H0; try reflexivity; exfalso; specialize (H0 v eq_refl); lia]).
  - split; [intros _ v E; discriminate | reflexivity].
Qed.
Lemma step_size_spec t p :
  t <> 0 -> enforce_step_size t p = Done (Ok tt) <-> (t | p).
Proof.
  intros Ht. unfold enforce_step_size. rewrite drem_spec by exact Ht. cbn [bind].
  rewrite <- (rem_divide p t Ht). destruct (Z.rem p t =? 0); cbn; split; congruence.
Qed.
Lemma spread_spec b a : enforce_bid_ask_spread b a = Ok tt <-> b < a.
Proof. unfold enforce_bid_ask_spread. destruct (Z.leb_spec a b); split; intros; try congruence; lia. Qed.

Lemma and_then_ok {E A B} (r : outcome (result E A)) (k : outcome (result E B)) b :
  and_then r k = Done (Ok b) <-> (exists a, r = Done (Ok a)) /\ k = Done (Ok b).
Proof.
  unfold and_then. split.
  - intros H. apply bind_done in H as [[a|e] [-> H]]; [eauto | discriminate].
  - intros [[a ->] ->]. reflexivity.
Qed.
Lemma ok_tt {E} (r : result E unit) : (exists a, @Done (result E unit) r = Done (Ok a)) <-> r = Ok tt.
Proof. split; [intros [[] H]; congruence | intros ->; eauto]. Qed.
Lemma ok_tt' {E} (r : outcome (result E unit)) : (exists a, r = Done (Ok a)) <-> r = Done (Ok tt).
Proof. split; [intros [[] H]; congruence | intros ->; eauto]. Qed.
Lemma done_ok {E} (r : result E unit) : Done r = Done (Ok tt) <-> r = Ok tt.
Proof. split; congruence. Qed.

Lemma data_exact f u : pf_tick f <> 0 -> validate_market_update f u = Done (Ok tt) <-> data_ok f u.
Proof.
  intros Ht. unfold validate_market_update, data_ok, data_price, in_limits.
  destruct u as [b|t|k|sc]; [| | |tauto];
  unfold validate_bba, validate_trade, validate_candle;
  repeat (rewrite and_then_ok || rewrite ok_tt'); rewrite ?done_ok;
  rewrite ?(step_size_spec _ _ Ht), ?spread_spec, ?max_price_spec;
  repeat match goal with |- context [enforce_min_price ?m ?p = Ok tt] =>
    rewrite (proj2 (min_price_spec m p)) end; tauto.
Qed.

(** A market update that is validated never divides by zero when the tick is not zero. *)
Lemma data_total f u : pf_tick f <> 0 -> exists v, validate_market_update f u = Done v.
Proof.
  intros Ht. unfold validate_market_update, validate_bba, validate_trade, validate_candle, and_then, enforce_step_size.
  destruct u; rewrite ?drem_spec by exact Ht; cbn [bind];
  repeat match goal with |- exists v, (match ?r with Ok _ => _ | Err _ => _ end) = Done v => destruct r; cbn [bind] | |- context[bind ?m] => rewrite drem_spec by exact Ht; cbn [bind] end; eauto.
Qed.

(** Configuration. *)
Lemma leverage_exact s v :
  (leverage_new s v = Ok (v * s) <-> 1 <= v) /\ (leverage_new s v = Err InvalidLeverage <-> v < 1).
Proof. unfold leverage_new. destruct (Z.ltb_spec v 1); repeat split; intros; try congruence; lia. Qed.

Lemma contract_exact s v fraction pf qf maker taker :
  0 < s -> 1 <= v ->
  exists r, contract_new s (v * s) fraction pf qf maker taker = Done r /\
    (r = Err InvalidMaintenanceMarginFraction <-> fraction <= 0 \/ s < fraction) /\
    (r = Ok {| ct_imr := s / v; ct_mm := s / v * fraction / s; ct_pf := pf; ct_qf := qf;
               ct_maker := maker; ct_taker := taker |} <-> 0 < fraction <= s).
Proof.
  intros Hs Hv. unfold contract_new.
  destruct (Z.ltb_spec s fraction); [eexists; split; [reflexivity|]; split; split; intros; try congruence; lia|].
  destruct (Z.leb_spec fraction 0); cbn [orb];
    [eexists; split; [reflexivity|]; split; split; intros; try congruence; lia|].
  unfold init_margin_req, ddiv. destruct (Z.eqb_spec (v * s) 0); [nia|]. cbn [bind].
  assert (E : Z.quot (s * s) (v * s) = s / v).
  { rewrite Z.quot_div_nonneg by nia. apply Z.div_mul_cancel_r; lia. }
  assert (0 <= s / v) by (apply Z.div_pos; lia).
  eexists. split; [reflexivity|]. split; split; intros; try congruence; try lia.
  rewrite E. unfold dmul. rewrite Z.quot_div_nonneg by nia. reflexivity.
Qed.

Lemma config_exact k s dbg start max ct sample :
  let r := config_new k s dbg start max ct sample in
  (r = Err InvalidMaxNumOpenOrders <-> max = 0) /\
  (r = Err InvalidStartingBalance <-> max <> 0 /\ start <= 0) /\
  (r = Ok {| c_kind := k; c_scale := s; c_dbg := dbg; c_start := start; c_max := max; c_spec := ct;
             c_sample_s := sample |} <-> max <> 0 /\ 0 < start).
Proof.
  cbv zeta. unfold config_new. destruct (Z.eqb_spec max 0); [|destruct (Z.leb_spec start 0)];
  repeat split; intros; try congruence; try lia; tauto.
Qed.

Lemma margins_in_range s v fraction pf qf maker taker ct :
  0 < s -> 1 <= v -> contract_new s (v * s) fraction pf qf maker taker = Done (Ok ct) ->
  0 <= ct_mm ct <= ct_imr ct /\ ct_imr ct <= s /\ (v <= s -> 0 < ct_imr ct).
Proof.
  intros Hs Hv H. destruct (contract_exact s v fraction pf qf maker taker Hs Hv) as (r & Hr & Herr & Hok).
  rewrite H in Hr. injection Hr as <-.
  assert (Hf : 0 < fraction <= s).
  { destruct (Z.leb_spec fraction 0); [exfalso; assert (@Ok config_error _ ct = Err InvalidMaintenanceMarginFraction) by (apply Herr; lia); discriminate|].
    destruct (Z.ltb_spec s fraction); [exfalso; assert (@Ok config_error _ ct = Err InvalidMaintenanceMarginFraction) by (apply Herr; lia); discriminate|]. lia. }
  apply Hok in Hf as E. injection E as ->. cbn [ct_mm ct_imr].
  assert (0 <= s / v) by (apply Z.div_pos; lia). assert (s / v <= s) by (apply Z.div_le_upper_bound; nia).
  split; [|split; [assumption|]].
  - split; [apply Z.div_pos; nia|]. apply Z.div_le_upper_bound; nia.
  - intros. apply Z.div_str_pos. lia.
Qed.
