(** Small inputs never overflow. *)
From Coq Require Import Permutation.
From Verif Require Import ProofBase BookLemmas StepLemmas FillLemmas OpLemmas Inv Spec SpecMargin SpecConfig SpecBound
  MarginProof OrderProof SoundProof BoundProof Width Fixed SpecFixed FixedProof.

Definition nov {A} (m : checked A) : Prop := m <> Overflow.

Lemma nov_fine {A} (m : outcome A) : nov (Fine m).
Proof. discriminate. Qed.
Lemma nov_ret {A} (a : A) : nov (ret a).
Proof. discriminate. Qed.

(** The rest of a computation starts in a state the unbounded computation reaches. *)
Lemma nov_bind {A B} (m : checked A) n (k : A -> checked B) :
  refines m n -> nov m -> (forall a, n = Done a -> nov (k a)) -> nov (cbind m k).
Proof.
  intros [-> | ->] Hm Hk; [contradiction Hm; reflexivity|]. destruct n; cbn; [auto | discriminate].
Qed.

Lemma nov_debug dbg m p : nov m -> nov (cdebug_assert_m dbg m p).
Proof.
  intros H. unfold cdebug_assert_m. destruct dbg; [|apply nov_ret]. destruct m as [[b|p0]|]; cbn; [apply nov_fine | discriminate | intros _; apply H; reflexivity].
Qed.

Create HintDb rf.
#[local] Hint Constants Opaque : rf.
#[local] Hint Resolve r_ret r_fine r_chk r_count r_cadd r_csub r_cneg r_cabs r_cmul r_cdiv r_crem r_convert r_pnl r_liq_long
  r_liq_short r_weighted r_balance r_sum r_equation r_accounting_new r_transfer r_limit_price r_step_size r_quantity r_inner_new
  r_increase r_decrease r_no_margin r_change r_total r_order_fill r_neg_all r_sort_keys r_offset r_value r_om_internal r_om r_om_with
  r_open r_reduce r_market r_limit r_mm r_mid r_validate_bba r_validate_trade r_validate_candle r_validate r_market_update r_any_valid
  r_aggregate r_smart r_build r_tracker_add r_log_submission r_log_cancellation r_log_fill r_log_mfill r_log_msub r_log_trade
  r_tracker_update r_trigger r_exchange_new r_balances r_balances_sum r_wallet r_computed r_empty r_settle r_submit_market r_liquidate
  r_append r_submit_limit r_cancel r_amend r_fill_one r_fill_loop r_check r_update_state r_step r_run r_init : rf.

(** One bind: the first goal is the bound computation. *)
Ltac nb H := eapply nov_bind; [solve [eauto 2 with rf] | | intros ? H].
(** The same when the bound computation cannot panic. *)
Ltac np := let H := fresh in eapply nov_bind; [solve [eauto 2 with rf] | | intros ? H; injection H as <-].
Ltac nbp H := eapply nov_bind; [solve [eauto 2 with rf] | | intros [? ?] H; cbv beta iota].
Ltac flat := unfold pq, due, entry_in, signed in *; cbn [position_quantity position_outstanding_fees position_entry_price mk_pos side_inverted pos_ok] in *.
(** An assertion. *)
Ltac na H := eapply nov_bind; [apply r_fine | apply nov_fine | intros ? H].

Lemma volume_nonneg ops : 0 <= volume ops.
Proof. unfold volume, sumZ. induction ops as [|o ops IH]; cbn; [lia|]. assert (0 <= ordered o) by (destruct o; cbn; lia). lia. Qed.
Lemma submissions_nonneg ops : 0 <= submissions ops.
Proof. unfold submissions, sumZ. induction ops as [|o ops IH]; cbn; [lia|]. assert (0 <= reserves o) by (destruct o; cbn; lia). lia. Qed.
Lemma volume_cons o ops : volume (o :: ops) = ordered o + volume ops.
Proof. reflexivity. Qed.
Lemma submissions_cons o ops : submissions (o :: ops) = reserves o + submissions ops.
Proof. reflexivity. Qed.

Section Width.
Variables w P T Vt : Z.
Variable c : config.
Notation L := (2 ^ (w - 1)).
Notation s := (c_scale c).
Notation om := (weight c P).
Hypothesis Vc : valid_config c.
Hypothesis Ci : config_in c P Vt T L.

Lemma s_pos : 0 < s. Proof. apply (vc_scale _ Vc). Qed.
Lemma om_pos : 0 <= om. Proof. apply weight_nonneg. pose proof (ci_price _ _ _ _ _ Ci). lia. Qed.
Lemma rates : rate_ok c. Proof. split; [apply (ci_maker _ _ _ _ _ Ci) | apply (ci_taker _ _ _ _ _ Ci)]. Qed.
Lemma L_pos : 0 < L. Proof. pose proof (ci_price _ _ _ _ _ Ci). lia. Qed.

Lemma nov_chk z : - L <= z < L -> nov (chk w z).
Proof.
  intros H. unfold chk, fits. destruct (Z.leb_spec (- L) z); [|lia]. destruct (Z.ltb_spec z L); [|lia]. apply nov_ret.
Qed.
Lemma nov_count z : 0 <= z < 2 ^ 64 -> nov (count z).
Proof.
  intros H. unfold count, fits_unsigned. destruct (Z.leb_spec 0 z); [|lia]. destruct (Z.ltb_spec z (2 ^ 64)); [|lia]. apply nov_ret.
Qed.
Lemma nov_add a b : - L <= a + b < L -> nov (cadd w a b). Proof. apply nov_chk. Qed.
Lemma nov_sub a b : - L <= a - b < L -> nov (csub w a b). Proof. apply nov_chk. Qed.
Lemma nov_neg a : - L <= - a < L -> nov (cneg w a). Proof. apply nov_chk. Qed.
Lemma nov_abs a : Z.abs a < L -> nov (cabs w a). Proof. intros. apply nov_chk. lia. Qed.

Lemma scaled_lt x : s * x < s * L -> x < L.
Proof. intros H. apply (Z.mul_lt_mono_pos_l s); [apply s_pos | exact H]. Qed.

Lemma nov_mul a b : Z.abs a * Z.abs b < s * L -> nov (cmul w s a b).
Proof.
  intros H. apply nov_chk. unfold dmul. pose proof s_pos as Hs. rewrite <- Z.abs_mul in H.
  assert (A : Z.abs (Z.quot (a * b) s) < L).
  { rewrite <- Z.quot_abs by lia. rewrite (Z.abs_eq s) by lia. apply scaled_lt.
    eapply Z.le_lt_trans; [apply Z.mul_quot_le; lia | exact H]. }
  lia.
Qed.
(** Multiplying by a rate. *)
Lemma nov_rate a b : Z.abs a < L -> Z.abs b <= s -> nov (cmul w s a b).
Proof. intros H1 H2. apply nov_mul. pose proof s_pos. nia. Qed.

Lemma nov_rem a b : 0 <= a < L -> nov (crem w a b).
Proof.
  intros H. unfold crem, fits. destruct (Z.leb_spec (- L) (- a)); [|lia]. destruct (Z.ltb_spec (- a) L); [|pose proof L_pos; lia].
  rewrite Bool.andb_false_r. apply nov_fine.
Qed.

Lemma conv_lt q p : 0 <= p <= P -> om * Z.abs q < s * L -> Z.abs (conv (c_kind c) s q p) < L.
Proof.
  intros Hp H. apply scaled_lt. eapply Z.le_lt_trans; [apply (conv_abs c P); [apply s_pos | exact Hp] | exact H].
Qed.

Lemma nov_convert q p : 0 <= p <= P -> om * Z.abs q < s * L -> nov (w_convert_from w (c_kind c) s q p).
Proof.
  intros Hp H. pose proof (conv_lt q p Hp H) as A. unfold w_convert_from, conv in *. destruct (c_kind c).
  - unfold cmul, dmul. apply nov_chk. lia.
  - unfold cdiv, ddiv. destruct (p =? 0); [apply nov_fine|]. cbn. apply nov_chk. lia.
Qed.

Lemma nov_pnl entry exit q :
  0 <= entry <= P -> 0 <= exit <= P -> om * Z.abs q < s * L -> nov (w_pnl w (c_kind c) s entry exit q).
Proof.
  intros He Hx H. pose proof (nov_convert q entry He H) as A. pose proof (nov_convert q exit Hx H) as B.
  assert (D : Z.abs (pnl_pure (c_kind c) s entry exit q) < L).
  { apply scaled_lt. eapply Z.le_lt_trans; [apply (pnl_weight c P); [apply s_pos|assumption|assumption] | exact H]. }
  unfold w_pnl, pnl_pure in *. destruct (q =? 0); [apply nov_ret|]. destruct (c_kind c).
  - nb Ha; [exact B|]. nb Hb; [exact A|]. apply convert_from_done in Ha, Hb. subst. apply nov_sub. lia.
  - nb Ha; [exact A|]. nb Hb; [exact B|]. apply convert_from_done in Ha, Hb. subst. apply nov_sub. lia.
Qed.

Lemma nov_weighted p0 w0 p1 w1 :
  0 <= p0 <= P -> 0 <= p1 <= P -> 0 <= w0 -> 0 < w1 -> w0 + w1 <= Vt -> nov (w_new_weighted_price w s p0 w0 p1 w1).
Proof.
  intros H0 H1 W0 W1 HV. pose proof s_pos as Hs. destruct Ci as [Cp Csc Cv Cc _ _ _ _ _ _ _].
  unfold w_new_weighted_price.
  destruct (quot_scaled s (p0 * w0) Hs ltac:(nia)) as [A1 A2]. destruct (quot_scaled s (p1 * w1) Hs ltac:(nia)) as [B1 B2].
  fold (dmul s p0 w0) in A1, A2. fold (dmul s p1 w1) in B1, B2.
  assert (X : p0 * w0 + p1 * w1 <= P * Vt) by nia.
  assert (Y : dmul s p0 w0 + dmul s p1 w1 < L) by (apply scaled_lt; nia).
  np; [apply nov_add; lia|]. np; [unfold cmul; apply nov_chk; lia|]. np; [unfold cmul; apply nov_chk; lia|].
  np; [apply nov_add; lia|]. unfold cdiv. nb Hd; [apply nov_fine|].
  unfold ddiv in Hd. destruct (w0 + w1 =? 0); [discriminate|]. injection Hd as <-.
  pose proof (weighted_range s P p0 w0 p1 w1 Hs H0 H1 W0 W1) as Hw. unfold weighted in Hw. apply nov_chk. lia.
Qed.

(** ** Accounting *)
Definition room (acc : accounts) : Prop := nonneg acc /\ debit_sum acc = credit_sum acc /\ debit_sum acc < L.

Lemma nonneg_each acc : nonneg acc ->
  0 <= ta_debits (ac_wallet acc) /\ 0 <= ta_debits (ac_om acc) /\ 0 <= ta_debits (ac_pm acc) /\ 0 <= ta_debits (ac_fee acc) /\
  0 <= ta_debits (ac_broker acc) /\ 0 <= ta_debits (ac_treasury acc) /\
  0 <= ta_credits (ac_wallet acc) /\ 0 <= ta_credits (ac_om acc) /\ 0 <= ta_credits (ac_pm acc) /\ 0 <= ta_credits (ac_fee acc) /\
  0 <= ta_credits (ac_broker acc) /\ 0 <= ta_credits (ac_treasury acc).
Proof.
  intros H. pose proof (H WALLET). pose proof (H ORDER_MARGIN). pose proof (H POSITION_MARGIN). pose proof (H FEE).
  pose proof (H BROKER). pose proof (H TREASURY). cbn in *. lia.
Qed.

Lemma bal_range acc id : room acc -> - debit_sum acc <= bal acc id <= debit_sum acc.
Proof.
  intros (Hn & Hs & _). apply nonneg_each in Hn. unfold bal, margin_balance_of, net_balance. unfold debit_sum, credit_sum in *.
  destruct id; cbn; lia.
Qed.

Lemma room_nonneg acc : room acc -> 0 <= debit_sum acc.
Proof. intros (Hn & _). apply nonneg_each in Hn. unfold debit_sum. lia. Qed.

Lemma nov_balance acc id : room acc -> nov (w_margin_balance_of w acc id).
Proof.
  intros H. pose proof (bal_range acc id H). destruct H as (_ & _ & H). unfold w_margin_balance_of.
  apply nov_sub. unfold bal, margin_balance_of, net_balance in *. lia.
Qed.

Lemma nov_equation dbg acc : room acc -> nov (w_accounting_equation w dbg acc).
Proof.
  intros (Hn & Hs & HL). apply nonneg_each in Hn. unfold debit_sum, credit_sum in *.
  apply nov_debug. cbn [map w_sum].
  eapply nov_bind; [repeat (eapply r_pure; [apply r_cadd|]); apply r_ret| |intros ? _].
  { do 6 (np; [apply nov_add; lia|]). apply nov_ret. }
  eapply nov_bind; [repeat (eapply r_pure; [apply r_cadd|]); apply r_ret| |intros ? _].
  { do 6 (np; [apply nov_add; lia|]). apply nov_ret. }
  apply nov_ret.
Qed.

Lemma room_transfer acc d k amt : d <> k -> 0 < amt -> room acc -> debit_sum acc + amt < L -> room (transfer_pure acc d k amt).
Proof.
  intros Hdk Ha (Hn & Hs & _) HL. destruct (transfer_sums acc d k amt Hdk) as [E1 E2]. split; [|split; lia].
  eapply tpath_nonneg; [apply tpath_one; [exact Ha | exact Hdk]|assumption].
Qed.

Lemma nov_transfer dbg acc d k amt : room acc -> debit_sum acc + amt < L -> nov (w_transfer w dbg acc d k amt).
Proof.
  intros R HL. unfold w_transfer. na Htx. unfold transaction_new in Htx. inv. cbn [tx_debit tx_credit tx_amount].
  destruct (account_id_eq_dec d k) as [E|E]; [discriminate|].
  assert (R2 : room (transfer_pure acc d k amt)) by (apply room_transfer; try assumption; lia).
  destruct R as (Hn & Hs & _). pose proof (Hn d) as Hnd. pose proof (Hn k) as Hnk. apply nonneg_each in Hn.
  assert (HdD : 0 <= ta_debits (get_account acc d) <= debit_sum acc) by (unfold debit_sum; destruct d; cbn in *; lia).
  assert (HkD : 0 <= ta_credits (get_account acc k) <= debit_sum acc) by (rewrite Hs; unfold credit_sum; destruct k; cbn in *; lia).
  np; [apply nov_add; lia|]. np; [apply nov_add; lia|].
  nb Hx; [|apply nov_ret]. apply nov_equation. exact R2.
Qed.

(** ** Position *)
Lemma margin_lt q p : 0 <= q -> 0 <= p <= P -> om * q < s * L -> 0 <= margin_of c q p < L.
Proof.
  intros Hq Hp H. destruct (margin_weight c P q p Vc Hq Hp) as [M1 M2]. split; [exact M1|]. apply scaled_lt. lia.
Qed.

Lemma nov_margin q p : 0 <= p <= P -> om * Z.abs q < s * L -> nov (cmul w s (conv (c_kind c) s q p) (ct_imr (c_spec c))).
Proof. intros Hp H. apply nov_rate; [apply conv_lt; assumption|]. pose proof (vc_imr _ Vc). lia. Qed.

Lemma nov_inner_new acc q p f :
  room acc -> 0 <= p <= P -> s * debit_sum acc + om * Z.abs q < s * L -> nov (w_inner_new w c acc q p f).
Proof.
  intros R Hp H. pose proof (room_nonneg _ R) as HD. pose proof s_pos as Hs. unfold w_inner_new. na Hq. na Hp0.
  apply assert_done in Hq. rewrite Z.abs_eq in H by lia.
  assert (H1 : 0 <= s * debit_sum acc) by (apply Z.mul_nonneg_nonneg; lia).
  nb Hv; [apply nov_convert; [assumption|rewrite Z.abs_eq; lia]|]. apply convert_from_done in Hv. subst.
  np; [apply nov_margin; [assumption|rewrite Z.abs_eq; lia]|].
  nb Ht; [|apply nov_ret]. fold (margin_of c q p). destruct (margin_weight c P q p Vc ltac:(lia) Hp) as [M1 M2].
  apply nov_transfer; [assumption|]. apply scaled_lt. lia.
Qed.

Lemma nov_increase i acc q p f :
  room acc -> 0 <= p <= P -> 0 <= pi_entry i <= P -> 0 < pi_qty i -> pi_qty i + Z.abs q <= Vt ->
  Z.abs (pi_fees i) + Z.abs f < L ->
  s * debit_sum acc + om * Z.abs q < s * L -> nov (w_increase_contracts w c i acc q p f).
Proof.
  intros R Hp He Hi HV Hf H. pose proof (room_nonneg _ R) as HD. pose proof s_pos as Hs. pose proof (ci_volume _ _ _ _ _ Ci).
  unfold w_increase_contracts. na Hq. na Hp0.
  apply assert_done in Hq. rewrite Z.abs_eq in H, HV by lia.
  assert (H1 : 0 <= s * debit_sum acc) by (apply Z.mul_nonneg_nonneg; lia).
  nb Hv; [apply nov_convert; [assumption|rewrite Z.abs_eq; lia]|]. apply convert_from_done in Hv. subst.
  nb Hw; [apply nov_weighted; lia|]. np; [apply nov_add; lia|]. np; [apply nov_add; lia|].
  np; [apply nov_margin; [assumption|rewrite Z.abs_eq; lia]|].
  nb Ht; [|apply nov_ret]. fold (margin_of c q p). destruct (margin_weight c P q p Vc ltac:(lia) Hp) as [M1 M2].
  apply nov_transfer; [assumption|]. apply scaled_lt. lia.
Qed.

Lemma nov_decrease i acc q p long f :
  room acc -> 0 <= p <= P -> 0 <= pi_entry i <= P -> pi_qty i <= Vt -> Z.abs (pi_fees i) + Z.abs f < L ->
  s * debit_sum acc + om * (2 * Z.abs q) + s * Z.max 0 (pi_fees i + f) < s * L ->
  nov (w_decrease_contracts w c i acc q p long f).
Proof.
  intros R Hp He HV Hf H. pose proof (room_nonneg _ R) as HD. pose proof s_pos as Hs. pose proof om_pos as Ho.
  pose proof (ci_volume _ _ _ _ _ Ci) as Hci. pose proof L_pos as HL.
  unfold w_decrease_contracts. na Hq. na Hq2. apply assert_done in Hq, Hq2. rewrite Z.abs_eq in H by lia.
  assert (H1 : 0 <= s * debit_sum acc) by (apply Z.mul_nonneg_nonneg; lia).
  assert (H2 : 0 <= s * Z.max 0 (pi_fees i + f)) by (apply Z.mul_nonneg_nonneg; lia).
  assert (H3 : 0 <= om * q) by (apply Z.mul_nonneg_nonneg; lia).
  np; [apply nov_sub; lia|]. np; [apply nov_add; lia|]. na Hdb.
  eapply nov_bind with (n := Done (dir long q)).
  { unfold dir. destruct long; [apply r_ret | apply r_cneg]. }
  { destruct long; [apply nov_ret | apply nov_neg; lia]. }
  intros x Hx; injection Hx as <-.
  assert (Hdir : Z.abs (dir long q) = q) by (unfold dir; destruct long; lia).
  nb Hpr; [apply nov_pnl; [assumption|assumption|rewrite Hdir; lia]|]. apply pnl_done in Hpr. subst.
  pose proof (pnl_weight c P (pi_entry i) p (dir long q) Hs He Hp) as Pn. rewrite Hdir in Pn.
  set (pr := pnl_pure _ _ _ _ _) in *. clearbody pr.
  destruct (margin_weight c P q (pi_entry i) Vc ltac:(lia) He) as [M1 M2].
  assert (Hloss : nov (cabs w pr)) by (apply nov_abs, scaled_lt; lia).
  eapply nov_bind with (n := match pr ?= 0 with
      | Gt => transfer (c_dbg c) acc WALLET TREASURY pr | Lt => transfer (c_dbg c) acc TREASURY WALLET (Z.abs pr) | Eq => Done acc end).
  { destruct (pr ?= 0); [apply r_ret | eapply r_pure; [apply r_cabs | apply r_transfer] | apply r_transfer]. }
  { assert (HpL : debit_sum acc + Z.abs pr < L) by (apply scaled_lt; lia).
    destruct (pr ?= 0); [apply nov_ret | np; [assumption | apply nov_transfer; assumption] | apply nov_transfer; [assumption|lia]]. }
  intros acc1 Hacc1.
  assert (R1 : room acc1 /\ debit_sum acc1 = debit_sum acc + Z.abs pr).
  { assert (debit_sum acc + Z.abs pr < L) by (apply scaled_lt; lia). destruct (Z.compare_spec pr 0).
    - injection Hacc1 as <-. subst. split; [assumption|lia].
    - apply transfer_done in Hacc1 as (_ & _ & ->). split; [apply room_transfer; try assumption; [discriminate|lia]|].
      apply transfer_debits; discriminate.
    - apply transfer_done in Hacc1 as (_ & _ & ->). split; [apply room_transfer; try assumption; [discriminate|lia]|].
      rewrite transfer_debits by discriminate. lia. }
  destruct R1 as [R1 D1].
  nb Hv; [apply nov_convert; [assumption|rewrite Z.abs_eq; lia]|]. apply convert_from_done in Hv. subst.
  np; [apply nov_margin; [assumption|rewrite Z.abs_eq; lia]|]. fold (margin_of c q (pi_entry i)). na Hdb2.
  assert (HD1 : debit_sum acc1 + margin_of c q (pi_entry i) < L) by (apply scaled_lt; lia).
  nb Ht; [apply nov_transfer; assumption|]. apply transfer_done in Ht as (Hpos & _ & ->).
  assert (R2 : room (transfer_pure acc1 WALLET POSITION_MARGIN (margin_of c q (pi_entry i)))) by (apply room_transfer; try assumption; discriminate).
  destruct (Z.ltb_spec 0 (pi_fees i + f)); [|apply nov_ret]. nb Ht2; [|apply nov_ret].
  apply nov_transfer; [assumption|]. rewrite transfer_debits by discriminate. rewrite Z.max_r in H by lia. apply scaled_lt. lia.
Qed.

Lemma nov_no_margin dbg acc p : room acc -> nov (w_no_position_margin w dbg acc p).
Proof. intros R. apply nov_debug. np; [apply nov_balance; assumption | apply nov_ret]. Qed.

Lemma room_path a b : tpath a b -> room a -> debit_sum b < L -> room b.
Proof. intros H (R1 & R2 & _) HL. split; [eapply tpath_nonneg; eassumption|]. split; [eapply tpath_sums; eassumption|assumption]. Qed.

(** [x] bounds the quantity that is opened. *)
Lemma nov_change pos acc q p sd f x :
  room acc -> 0 <= p <= P -> pos_ok pos -> entry_in P pos -> 0 < q <= Vt -> pq pos <= Vt ->
  Z.abs (position_quantity pos + signed sd q) <= Vt -> Z.abs (due pos) + Z.abs f < L -> s * Z.abs f <= om * q ->
  q + Z.abs (position_quantity pos + signed sd q) - pq pos <= 2 * x ->
  s * debit_sum acc + s * Z.max 0 (due pos) + om * (3 * pq pos) + om * (2 * x) < s * L ->
  nov (w_change_position w c pos acc q p sd f).
Proof.
  intros R Hp Hok He Hq HV1 HV2 Hf Hfw Hx H. pose proof s_pos as Hs. pose proof om_pos as Ho. pose proof (room_nonneg _ R) as HD.
  pose proof (ci_volume _ _ _ _ _ Ci) as Hci. pose proof L_pos as HL.
  assert (HsD : 0 <= s * debit_sum acc) by mulpos.
  assert (Hsf : s * Z.max 0 (due pos + f) <= s * Z.max 0 (due pos) + om * q).
  { eapply Z.le_trans; [|apply Z.add_le_mono_l; exact Hfw]. rewrite <- Z.mul_add_distr_l. apply Z.mul_le_mono_nonneg_l; lia. }
  assert (Hdm : 0 <= s * Z.max 0 (due pos)) by mulpos.
  assert (Open : forall i, (pos = Neutral \/ pos = mk_pos sd i) -> pos = Neutral \/ 0 < pi_qty i -> s * debit_sum acc + om * Z.abs q < s * L).
  { intros i Hi Hi2. assert (q <= x). {
      destruct Hi as [->| ->]; [destruct sd; flat; lia|].
      destruct Hi2 as [E|Hi2]; [destruct sd; discriminate E|]. destruct sd; flat; lia. }
    assert (om * q <= om * x) by (apply Z.mul_le_mono_nonneg_l; lia).
    assert (0 <= om * q) by mulpos. assert (0 <= om * (3 * pq pos)) by (pose proof (pq_nonneg pos); mulpos).
    rewrite Z.abs_eq by lia. lia. }
  (* closing [k] of them *)
  assert (Dec : forall i long k, pos = mk_pos (side_inverted sd) i -> 0 < pi_qty i -> 0 < k <= pi_qty i -> k <= q -> q - k <= x ->
     nov (w_decrease_contracts w c i acc k p long f) /\
     forall j acc1, decrease_contracts c i acc k p long f = Done (j, acc1) -> room acc1 /\ s * debit_sum acc1 + om * (q - k) < s * L).
  { intros i long k Epos Hi Hk Hkq Hkx.
    assert (Epq : pq pos = pi_qty i) by (subst pos; destruct sd; flat; lia).
    assert (Ed : due pos = pi_fees i) by (subst pos; destruct sd; reflexivity).
    assert (Ee : 0 <= pi_entry i <= P) by (subst pos; unfold entry_in in He; destruct sd; exact He).
    rewrite Epq, Ed in *.
    assert (om * k <= om * pi_qty i) by (apply Z.mul_le_mono_nonneg_l; lia).
    assert (om * (q - k) <= om * x) by (apply Z.mul_le_mono_nonneg_l; lia).
    assert (om * q = om * k + om * (q - k)) by ring. assert (0 <= om * k) by mulpos. assert (0 <= om * (q - k)) by mulpos.
    split.
    - apply nov_decrease; try assumption; try lia.
    - intros j acc1 Hd. apply decrease_spec in Hd as (_ & Hm & _ & ->).
      pose proof (pnl_weight c P (pi_entry i) p (dir long k) Hs Ee Hp) as Pn.
      assert (Z.abs (dir long k) = k) as Hdir by (unfold dir; destruct long; lia). rewrite Hdir in Pn.
      destruct (margin_weight c P k (pi_entry i) Vc ltac:(lia) Ee) as [M1 M2].
      set (pr := pnl_pure _ _ _ _ _) in *. clearbody pr. set (mg := margin_of _ _ _) in *. clearbody mg.
      assert (B : s * debit_sum (settle_acc acc pr mg (pi_fees i + f)) + om * (q - k) < s * L) by (rewrite settle_debits; lia).
      split; [|exact B]. apply (room_path acc); [apply settle_tpath; assumption | assumption |]. apply scaled_lt. lia. }
  unfold w_change_position. na Hdb. destruct pos as [|i|i].
  - nb Hn; [apply nov_no_margin; assumption|]. nbp Hi.
    + apply nov_inner_new; try assumption. apply (Open {| pi_qty := 0; pi_entry := 0; pi_fees := 0 |}); auto.
    + destruct sd; apply nov_ret.
  - destruct sd; flat.
    + nbp Hi; [|apply nov_ret]. apply nov_increase; try assumption; try lia. apply (Open i); auto.
    + destruct (Z.compare_spec q (pi_qty i)) as [E|Hlt|Hgt].
      * destruct (Dec i true q eq_refl) as [D1 D2]; try lia. nbp Hi; [exact D1|].
        nb Hn; [|apply nov_ret]. apply nov_no_margin. apply (D2 _ _ Hi).
      * destruct (Dec i true q eq_refl) as [D1 D2]; try lia. nbp Hi; [exact D1|apply nov_ret].
      * destruct (Dec i true (pi_qty i) eq_refl) as [D1 D2]; try lia.
        np; [apply nov_sub; lia|]. nbp Hi; [exact D1|]. destruct (D2 _ _ Hi) as [R1 B1].
        na Hz. np; [apply nov_balance; assumption|]. na Hz2. nbp Hj; [|apply nov_ret].
        apply nov_inner_new; try assumption. rewrite Z.abs_eq by lia. assumption.
  - destruct sd; flat.
    + destruct (Z.compare_spec q (pi_qty i)) as [E|Hlt|Hgt].
      * destruct (Dec i false q eq_refl) as [D1 D2]; try lia. nbp Hi; [exact D1|].
        nb Hn; [|apply nov_ret]. apply nov_no_margin. apply (D2 _ _ Hi).
      * destruct (Dec i false q eq_refl) as [D1 D2]; try lia. nbp Hi; [exact D1|apply nov_ret].
      * destruct (Dec i false (pi_qty i) eq_refl) as [D1 D2]; try lia.
        np; [apply nov_sub; lia|]. nbp Hi; [exact D1|]. destruct (D2 _ _ Hi) as [R1 B1].
        na Hz. np; [apply nov_balance; assumption|]. na Hz2. nbp Hj; [|apply nov_ret].
        apply nov_inner_new; try assumption. rewrite Z.abs_eq by lia. assumption.
    + nbp Hi; [|apply nov_ret]. apply nov_increase; try assumption; try lia. apply (Open i); auto.
Qed.

(** ** Limit orders *)
Lemma nov_order_fill o q ts : order_in P Vt o -> 0 < lo_price o -> nov (w_order_fill w s o q ts).
Proof.
  intros (Hp & Hr & Hf) Hp0. pose proof (ci_volume _ _ _ _ _ Ci) as Hci. pose proof L_pos as HL.
  unfold w_order_fill, lo_filled_qty in *. na H1. na H2. apply assert_done in H1, H2. destruct (lo_filled o) as [|cum avg].
  - np; [apply nov_sub; lia|]. destruct (q =? lo_rem o); apply nov_ret.
  - np; [apply nov_add; lia|]. nb Hw; [apply nov_weighted; lia|]. np; [apply nov_sub; lia|].
    destruct (_ =? 0); apply nov_ret.
Qed.

Lemma nov_total o : order_in P Vt o -> 0 < lo_rem o -> nov (w_lo_total_quantity w o).
Proof.
  intros (_ & Hr & Hf) Hp. pose proof (ci_volume _ _ _ _ _ Ci) as Hci. pose proof L_pos as HL.
  unfold w_lo_total_quantity, lo_filled_qty in *.
  destruct (lo_filled o) as [|cum avg].
  - na Hx. na Hy. apply nov_ret.
  - np; [apply nov_add; lia|]. na Hy. apply nov_ret.
Qed.

(** ** Order margin *)
Lemma nov_neg_all l : (forall x, In x l -> 0 <= fst x <= P) -> nov (w_neg_all w l).
Proof.
  pose proof (ci_price _ _ _ _ _ Ci) as Hci. intros H. induction l as [|x l IH]; cbn [w_neg_all]; [apply nov_ret|].
  pose proof (H x (or_introl eq_refl)). np; [apply nov_neg; lia|]. apply IH. intros y Hy; apply H; right; assumption.
Qed.
Lemma nov_sort_keys l : (forall x, In x l -> 0 <= fst x <= P) -> nov (w_sort_keys w l).
Proof. intros H. unfold w_sort_keys. destruct l as [|x [|y l]]; [apply nov_ret | apply nov_ret | apply nov_neg_all; assumption]. Qed.

Lemma nov_offset l : forall h, 0 <= h < L -> (forall x, In x l -> 0 <= snd x < L) -> nov (w_offset_orders w h l).
Proof.
  induction l as [|[p q] l IH]; intros h Hh H; cbn [w_offset_orders]; [apply nov_ret|].
  destruct (Z.ltb_spec 0 h); [|apply nov_ret]. pose proof (H _ (or_introl eq_refl)) as Hq. cbn in Hq. rewrite umin_min.
  np; [apply nov_sub; lia|]. np; [apply nov_sub; lia|]. np; [|apply nov_ret].
  apply IH; [lia|]. intros x Hx; apply H; right; assumption.
Qed.

Lemma nov_orders_value l : forall sum, (forall x, In x l -> 0 < fst x <= P /\ 0 <= snd x) -> 0 <= sum ->
  s * sum + om * sumZ (map snd l) < s * L -> nov (w_orders_value w (c_kind c) s sum l).
Proof.
  pose proof s_pos as Hs. pose proof om_pos as Ho. pose proof L_pos as HL.
  induction l as [|[p q] l IH]; intros sum H H0 HB; cbn [w_orders_value]; [apply nov_ret|].
  pose proof (H _ (or_introl eq_refl)) as Hq. cbn [fst snd] in Hq.
  assert (Hl : forall x, In x l -> 0 < fst x <= P /\ 0 <= snd x) by (intros x Hx; apply H; right; assumption).
  assert (Hsum : 0 <= sumZ (map snd l)).
  { clear - Hl. unfold sumZ. induction l as [|y l IH]; [cbn; lia|]. cbn. pose proof (Hl y (or_introl eq_refl)).
    specialize (IH (fun x Hx => Hl x (or_intror Hx))). lia. }
  cbn [map snd] in HB. unfold sumZ in HB. cbn [fold_right] in HB. fold (sumZ (map snd l)) in HB.
  assert (0 <= om * sumZ (map snd l)) by mulpos. assert (0 <= om * q) by mulpos. assert (0 <= s * sum) by mulpos.
  nb Hv; [apply nov_convert; [lia | rewrite Z.abs_eq by lia; lia]|]. apply convert_from_done in Hv. subst.
  destruct (conv_weight c P q p Hs ltac:(lia) ltac:(lia)) as [C1 C2].
  np; [apply nov_add; split; [lia|apply scaled_lt; lia]|]. apply IH; [assumption|lia|lia].
Qed.

Lemma w_with_order_eq b pos o : w_order_margin_with_order w c b pos o = w_order_margin w c (b ++ [o]) pos.
Proof.
  unfold w_order_margin_with_order, w_order_margin, w_order_margin_internal.
  assert (H : forall sd, side_orders sd b ++ (if side_eq_dec (lo_side o) sd then [(lo_price o, lo_rem o)] else [])
                         = side_orders sd (b ++ [o]) ++ []).
  { intros sd. rewrite app_nil_r, !side_pairs, pairs_app. f_equal. unfold pairs. cbn.
    destruct (side_eq_dec (lo_side o) sd); reflexivity. }
  rewrite !H. reflexivity.
Qed.

Lemma nov_om b pos :
  good_book b -> priced P b -> pos_ok pos -> pq pos < L -> load b < L -> om * load b < s * L -> nov (w_order_margin w c b pos).
Proof.
  intros Hg Hpr Hp Hpq Hld HB. pose proof s_pos as Hs. pose proof om_pos as Ho. pose proof L_pos as HL.
  unfold w_order_margin, w_order_margin_internal. na Hd. rewrite !app_nil_r, !side_pairs. cbv zeta.
  assert (HPb : forall sd x, In x (pairs sd b) -> 0 < fst x <= P /\ 0 < snd x <= load b).
  { intros sd x Hx. apply pairs_in in Hx as (o & Hin & _ & ->). cbn. destruct (Hg o Hin). specialize (Hpr o Hin).
    pose proof (load_member _ _ Hg Hin). lia. }
  np; [apply nov_sort_keys; intros x Hx; apply HPb in Hx; lia|].
  assert (HB2 : forall sd x, In x (sorted_side sd b) -> 0 < fst x <= P /\ 0 < snd x <= load b).
  { intros sd x Hx. apply (Permutation_in _ (proj1 (sorted_arranged sd b))) in Hx. eapply HPb; exact Hx. }
  change (sort_by_key (fun o : Z * Z => - fst o) (pairs Buy b)) with (sorted_side Buy b).
  change (sort_by_key (fun o : Z * Z => fst o) (pairs Sell b)) with (sorted_side Sell b).
  assert (H0 : forall sd, hedge 0 (sorted_side sd b) = sorted_side sd b).
  { intros sd. apply hedge_0. intros x Hx. apply HB2 in Hx. lia. }
  assert (HN : forall sd x, In x (sorted_side sd b) -> 0 <= snd x) by (intros sd x Hx; apply HB2 in Hx; lia).
  assert (Val : forall sd h, 0 <= h -> nov (w_orders_value w (c_kind c) s 0 (hedge h (sorted_side sd b))) /\
     Z.abs (cost (c_kind c) s (hedge h (sorted_side sd b))) < L /\
     orders_value (c_kind c) s (hedge h (sorted_side sd b)) = Done (cost (c_kind c) s (hedge h (sorted_side sd b)))).
  { intros sd h Hh. pose proof (hedge_sum h (sorted_side sd b) Hh (HN sd)) as S1. rewrite sorted_sum in S1. pose proof (pairs_sum sd b Hg) as S2.
    assert (om * sumZ (map snd (hedge h (sorted_side sd b))) <= om * load b) by (apply Z.mul_le_mono_nonneg_l; lia).
    split; [|split].
    - apply nov_orders_value; [|lia|lia]. intros x Hx. pose proof (hedge_bounds _ _ _ Hh (good_pos_list sd b Hg) Hx).
      destruct (hedge_fst _ _ _ Hx) as (y & Hy & E). apply HB2 in Hy. lia.
    - destruct (side_weight c P sd b h Hs Ho Hg Hpr Hh) as [A1 A2]. rewrite Z.abs_eq by assumption. apply scaled_lt. lia.
    - apply orders_value_cost. intros x Hx. destruct (hedge_fst _ _ _ Hx) as (y & Hy & E). apply HB2 in Hy. lia. }
  eapply nov_bind with (n := Done (hedge (Z.max 0 (- position_quantity pos)) (sorted_side Buy b))).
  { destruct pos as [|i|i]; cbn in *.
    - rewrite H0. apply r_ret.
    - rewrite Z.max_l by lia. rewrite H0. apply r_ret.
    - replace (Z.max 0 (- - pi_qty i)) with (pi_qty i) by lia. rewrite <- offset_hedge by (try lia; apply HN). apply r_offset. }
  { destruct pos as [|i|i]; [apply nov_ret | apply nov_ret|]. unfold pq in Hpq. cbn in *. apply nov_offset; [lia|]. intros x Hx. apply HB2 in Hx. lia. }
  intros l1 Hl1. injection Hl1 as <-.
  eapply nov_bind with (n := Done (hedge (Z.max 0 (position_quantity pos)) (sorted_side Sell b))).
  { destruct pos as [|i|i]; cbn in *.
    - rewrite H0. apply r_ret.
    - rewrite Z.max_r by lia. rewrite <- offset_hedge by (try lia; apply HN). apply r_offset.
    - rewrite Z.max_l by lia. rewrite H0. apply r_ret. }
  { destruct pos as [|i|i]; [apply nov_ret | | apply nov_ret]. unfold pq in Hpq. cbn in *. apply nov_offset; [lia|]. intros x Hx. apply HB2 in Hx. lia. }
  intros l2 Hl2. injection Hl2 as <-.
  destruct (Val Buy (Z.max 0 (- position_quantity pos)) ltac:(lia)) as (A1 & A2 & A3).
  destruct (Val Sell (Z.max 0 (position_quantity pos)) ltac:(lia)) as (B1 & B2 & B3).
  nb Hb; [exact A1|]. nb Hc; [exact B1|]. rewrite A3 in Hb. rewrite B3 in Hc. injection Hb as <-. injection Hc as <-.
  rewrite umax_max. apply nov_rate; [lia|]. pose proof (vc_imr _ Vc). lia.
Qed.

(** ** Filters *)
Lemma nov_step_size step p : price_in P p -> nov (w_enforce_step_size w step p).
Proof.
  intros H. pose proof (ci_price _ _ _ _ _ Ci). unfold price_in in H. unfold w_enforce_step_size. nb Hr; [apply nov_rem; lia | apply nov_ret].
Qed.

Lemma nov_limit_price limit mark : limit <= P -> price_in P mark ->
  nov (w_validate_limit_price w s (ct_pf (c_spec c)) limit mark).
Proof.
  intros Hl Hm. unfold price_in in Hm. destruct Ci as [Cp _ _ _ _ _ Cmin _ Cup Cdown _].
  unfold w_validate_limit_price. set (f := ct_pf (c_spec c)) in *. destruct (Z.leb_spec limit 0); [apply nov_ret|].
  destruct (match pf_max f with Some _ => _ | None => _ end); [apply nov_ret|].
  assert (X : forall m, match pf_min f with Some m => m | None => 0 end = m -> m <= limit -> 0 <= m -> nov (
    d <~ csub w limit m ;;
    r <~ crem w d (pf_tick f) ;;
    if negb (r =? 0) then ret (Err InvalidOrderPriceStepSize) else
    up <~ cmul w s mark (pf_up f) ;;
    if (up <? limit) && negb (pf_up f =? 0)
    then ret (Err LimitPriceAboveMultiple) else
    down <~ cmul w s mark (pf_down f) ;;
    if (limit <? down) && negb (pf_down f =? 0)
    then ret (Err LimitPriceBelowMultiple) else
    ret (Ok tt))).
  { intros m _ H1 H2. np; [apply nov_sub; lia|]. nb Hr; [apply nov_rem; lia|]. destruct (negb _); [apply nov_ret|].
    np; [apply nov_mul|].
    { eapply Z.le_lt_trans; [apply Z.mul_le_mono_nonneg_r; [lia | apply Z.abs_le; instantiate (1 := P); lia] | exact Cup]. }
    destruct (_ && _); [apply nov_ret|]. np; [apply nov_mul|].
    { eapply Z.le_lt_trans; [apply Z.mul_le_mono_nonneg_r; [lia | apply Z.abs_le; instantiate (1 := P); lia] | exact Cdown]. }
    destruct (_ && _); apply nov_ret. }
  destruct (pf_min f) as [m|]; cbn [at_least_zero] in *.
  - destruct (Z.ltb_spec limit m); [apply nov_ret|]. apply (X m eq_refl); lia.
  - apply (X 0 eq_refl); lia.
Qed.

Lemma nov_quantity q : 0 <= q < L -> nov (w_validate_order_quantity w (ct_qf (c_spec c)) q).
Proof.
  intros Hq. pose proof (ci_min_qty _ _ _ _ _ Ci) as Cmin.
  unfold w_validate_order_quantity. set (f := ct_qf (c_spec c)) in *. destruct (q =? 0); [apply nov_ret|].
  destruct (match qf_max f with Some _ => _ | None => _ end); [apply nov_ret|].
  assert (X : forall m, m <= q -> 0 <= m -> nov (
    d <~ csub w q m ;;
    r <~ crem w d (qf_tick f) ;;
    if negb (r =? 0) then ret (Err InvalidQuantityStepSize) else ret (Ok tt))).
  { intros m H1 H2. np; [apply nov_sub; lia|]. nb Hr; [apply nov_rem; lia|]. destruct (negb _); apply nov_ret. }
  destruct (qf_min f) as [m|]; cbn [at_least_zero] in *.
  - destruct (Z.ltb_spec q m); [apply nov_ret|]. apply X; lia.
  - apply X; lia.
Qed.

(** ** Market updates *)
Lemma nov_mid m : price_in P (ms_bid m) -> price_in P (ms_ask m) -> nov (w_mid_price w m) /\ price_in P (mid_price m).
Proof.
  unfold price_in, mid_price. intros H1 H2. pose proof (ci_price _ _ _ _ _ Ci).
  assert (0 <= Z.quot (ms_bid m + ms_ask m) 2 <= P).
  { split; [apply Z.quot_pos; lia|]. apply Z.quot_le_upper_bound; lia. }
  split; [|assumption]. unfold w_mid_price. np; [apply nov_add; lia|]. apply nov_chk. lia.
Qed.

Lemma nov_and_then {E A B} (r : checked (result E A)) n (k : checked (result E B)) :
  refines r n -> nov r -> nov k -> nov (w_and_then r k).
Proof. intros H1 H2 H3. unfold w_and_then. eapply nov_bind; [exact H1 | exact H2 | intros [x|e] _; [exact H3 | apply nov_ret]]. Qed.

Ltac nands := repeat (eapply nov_and_then; [solve [eauto 2 with rf] | first [apply nov_ret | apply nov_step_size; assumption]|]);
  first [apply nov_ret | apply nov_step_size; assumption].

Lemma nov_validate_bba f b : bba_in P b -> nov (w_validate_bba w f b).
Proof. intros [H1 H2]. unfold w_validate_bba. nands. Qed.
Lemma nov_validate_trade f t : price_in P (tr_price t) -> nov (w_validate_trade w f t).
Proof. intros H. unfold w_validate_trade. nands. Qed.

Definition feed_ok (u : market_update) : Prop :=
  match u with
  | UBba b => bba_in P b
  | UTrade t => price_in P (tr_price t)
  | UCandle k => price_in P (cd_bid k) /\ price_in P (cd_ask k) /\ price_in P (cd_low k) /\ price_in P (cd_high k)
  | USmart _ => True
  end.

Lemma nov_validate f u : feed_ok u -> nov (w_validate_market_update w f u).
Proof.
  destruct u as [b|t|k|sc]; cbn [w_validate_market_update feed_ok]; intros H; [apply nov_validate_bba | apply nov_validate_trade | | apply nov_ret]; try assumption.
  destruct H as (H1 & H2 & H3 & H4). unfold w_validate_candle. nands.
Qed.

Lemma update_step u m : ms_step (update_market_state u m) = ms_step m.
Proof. destruct u; reflexivity. Qed.

Lemma nov_market_update dbg f u m : feed_ok u -> 0 <= ms_step m -> ms_step m + 1 < 2 ^ 64 -> nov (w_market_update_state w dbg f u m).
Proof.
  intros H H1 H2. unfold w_market_update_state. eapply nov_bind; [apply r_debug_assert; eapply r_bind; [apply r_validate | intros v; apply r_ret]| |].
  { apply nov_debug. nb Hv; [apply nov_validate; assumption | apply nov_ret]. }
  intros _ _. cbv zeta. rewrite update_step. np; [apply nov_count; lia | apply nov_ret].
Qed.

Lemma nov_any_valid f l : (forall t, In t l -> price_in P (tr_price t)) -> nov (w_any_valid w f l).
Proof.
  intros H. induction l as [|t l IH]; cbn [w_any_valid]; [apply nov_ret|].
  nb Hv; [apply nov_validate_trade, H; left; reflexivity|]. destruct (is_ok _); [apply nov_ret|]. apply IH. intros x Hx; apply H; right; assumption.
Qed.

Definition size (l : list (Z * Z)) : Z := sumZ (map (fun x => Z.abs (snd x)) l).
Lemma nov_aggregate_loop l : forall last sum, Z.abs sum + size l < L -> nov (w_aggregate_loop w last sum l).
Proof.
  induction l as [|[p q] l IH]; intros last sum H; cbn [w_aggregate_loop]; [apply nov_ret|].
  unfold size, sumZ in *. cbn [map fold_right snd] in H.
  assert (0 <= fold_right Z.add 0 (map (fun x : Z * Z => Z.abs (snd x)) l)) by (clear; induction l; cbn [map fold_right]; lia).
  np; [apply nov_add; lia|]. assert (Z.abs (sum + q) + fold_right Z.add 0 (map (fun x : Z * Z => Z.abs (snd x)) l) < L) by lia.
  destruct (p =? last); [apply IH; assumption|]. eapply nov_bind; [apply r_aggregate_loop | apply IH; assumption | intros ? _; apply nov_ret].
Qed.
Lemma nov_aggregate l : size l < L -> nov (w_aggregate w l).
Proof. intros H. unfold w_aggregate. destruct l as [|[p q] l]; [apply nov_ret|]. apply nov_aggregate_loop. cbn [Z.abs]. lia. Qed.

Lemma size_trades sd l : size (trades_of sd l) <= sumZ (map (fun t => Z.abs (tr_qty t)) l).
Proof.
  unfold size, trades_of, sumZ. induction l as [|t l IH]; [cbn; lia|]. cbn [filter map fold_right].
  destruct (side_eq_dec (tr_side t) sd); cbn [map fold_right snd] in *; lia.
Qed.
Lemma size_perm l l' : Permutation l l' -> size l = size l'.
Proof. intros H. apply sumZ_perm, Permutation_map, H. Qed.

Lemma nov_build dbg ru : feed_in P T L ru -> nov (w_build_update w dbg ru).
Proof.
  destruct ru as [b|t|k|l b f]; cbn [feed_in w_build_update]; intros H; try apply nov_ret.
  destruct H as (Hb & Ht & Hs). nb Hsc; [|apply nov_ret]. unfold w_smart_candle_new. destruct l as [|t0 l]; [apply nov_fine|].
  set (ts := t0 :: l) in *. assert (Hp : forall t, In t ts -> price_in P (tr_price t)) by (intros t Hin; apply Ht, Hin).
  eapply nov_bind; [apply r_debug_assert, r_any_valid | apply nov_debug, nov_any_valid; assumption | intros _ _].
  nb Hv; [apply nov_validate_bba; assumption|]. na H1. na H2. cbv zeta.
  np; [apply nov_sort_keys|].
  { intros x Hx. unfold trades_of in Hx. apply in_map_iff in Hx as (t & <- & Hin). apply filter_In in Hin as [Hin _]. cbn. apply Hp; assumption. }
  np; [apply nov_aggregate|]. { rewrite (size_perm _ _ (sort_perm _ _)). pose proof (size_trades Buy ts). lia. }
  np; [apply nov_aggregate|]. { rewrite (size_perm _ _ (sort_perm _ _)). pose proof (size_trades Sell ts). lia. }
  apply nov_ret.
Qed.

Lemma build_ok dbg ru u : feed_in P T L ru -> build_update dbg ru = Done u -> feed_ok u.
Proof.
  destruct ru as [b|t|k|l b f]; cbn [feed_in build_update]; intros H E.
  - injection E as <-. apply H.
  - injection E as <-. apply H.
  - injection E as <-. cbn. tauto.
  - apply bind_done in E as (sc & _ & E). injection E as <-. exact I.
Qed.

(** ** Tracker *)
Definition roomy (N : Z) (t : tracker) : Prop :=
  (forall x, In x (counts t) -> 0 <= x <= N) /\ 0 <= tk_buy_volume t /\ 0 <= tk_sell_volume t /\ turn t < L.

Lemma nov_tracker_add N t a b d e f g x y :
  (forall z, In z (counts t) -> 0 <= z <= N) -> N + 1 < 2 ^ 64 -> 0 <= a <= 1 -> 0 <= b <= 1 -> 0 <= d <= 1 -> 0 <= e <= 1 -> 0 <= f <= 1 -> 0 <= g <= 1 ->
  0 <= tk_buy_volume t + x < L -> 0 <= tk_sell_volume t + y < L -> nov (w_tracker_add w t a b d e f g x y).
Proof.
  intros H HN Ha Hb Hd He Hf Hg Hx Hy. unfold counts in H. cbn [In] in H.
  pose proof (H (tk_sub_limit t) ltac:(tauto)). pose proof (H (tk_cancelled t) ltac:(tauto)). pose proof (H (tk_fill_events t) ltac:(tauto)).
  pose proof (H (tk_fully_filled t) ltac:(tauto)). pose proof (H (tk_sub_market t) ltac:(tauto)). pose proof (H (tk_filled_market t) ltac:(tauto)).
  clear H. unfold w_tracker_add. do 6 (np; [apply nov_count; lia|]). do 2 (np; [apply nov_add; lia|]). apply nov_ret.
Qed.

Lemma nov_log N t a b d e f g : roomy N t -> N + 1 < 2 ^ 64 ->
  0 <= a <= 1 -> 0 <= b <= 1 -> 0 <= d <= 1 -> 0 <= e <= 1 -> 0 <= f <= 1 -> 0 <= g <= 1 -> nov (w_tracker_add w t a b d e f g 0 0).
Proof. intros (H1 & H2 & H3 & H4) HN **. unfold turn in H4. apply (nov_tracker_add N); try assumption; lia. Qed.

Lemma nov_log_trade N t sd p q :
  roomy N t -> N + 1 < 2 ^ 64 -> 0 <= q -> 0 <= p <= P -> s * turn t + om * q < s * L -> nov (w_log_trade w c t sd p q).
Proof.
  intros (H1 & H2 & H3 & H4) HN Hq Hp HB. pose proof s_pos as Hs. unfold w_log_trade. na Hz.
  assert (0 <= s * turn t) by (unfold turn in *; mulpos).
  nb Hv; [apply nov_convert; [assumption | rewrite Z.abs_eq; lia]|]. apply convert_from_done in Hv. subst.
  destruct (conv_weight c P q p Hs Hq Hp) as [C1 C2]. set (v := conv _ _ _ _) in *. clearbody v.
  assert (turn t + v < L) by (apply scaled_lt; lia). unfold turn in *.
  destruct sd; apply (nov_tracker_add N); try assumption; lia.
Qed.

Lemma nov_trigger t ts : (tg_init t = false -> Z.abs (tg_last t) <= T) -> tg_interval t = c_sample_s c * 1000000000 -> nov (w_should_trigger t ts).
Proof.
  intros H E. pose proof (ci_sample _ _ _ _ _ Ci) as (C1 & C2 & C3). unfold w_should_trigger. destruct (tg_init t); [apply nov_ret|].
  specialize (H eq_refl). rewrite E. np; [|apply nov_ret]. unfold chk, fits. change (64 - 1) with 63.
  destruct (Z.leb_spec (- 2 ^ 63) (tg_last t + c_sample_s c * 1000000000)); [|lia].
  destruct (Z.ltb_spec (tg_last t + c_sample_s c * 1000000000) (2 ^ 63)); [|lia]. apply nov_ret.
Qed.

(** ** Risk engine *)
Lemma nov_mm bid ask pos : entry_in P pos -> nov (w_check_maintenance_margin w c bid ask pos).
Proof.
  intros He. destruct Ci as [Cp Csc _ _ _ _ _ _ _ _ _]. pose proof s_pos as Hs. pose proof (vc_mm _ Vc) as Hm. pose proof (vc_imr _ Vc) as Hi.
  unfold w_check_maintenance_margin. destruct pos as [|i|i]; flat; [apply nov_ret| |].
  - np; [|apply nov_ret]. unfold w_liquidation_price_long. np; [apply nov_sub; lia|]. apply nov_rate; lia.
  - np; [|apply nov_ret]. unfold w_liquidation_price_short. np; [apply nov_add; lia|]. apply nov_mul.
    rewrite !Z.abs_eq by lia. assert (pi_entry i * (s + ct_mm (c_spec c)) <= P * (2 * s)) by (apply Z.mul_le_mono_nonneg; lia).
    assert (s * (2 * P) < s * L) by (apply Z.mul_lt_mono_pos_l; lia). lia.
Qed.

(** A market order opening at most [x] contracts. *)
Lemma nov_check_market pos pm sd q p wallet x :
  0 <= p <= P -> 0 < q <= Vt -> pos_ok pos -> q + Z.abs (position_quantity pos + signed sd q) - pq pos <= 2 * x ->
  om * (2 * x) < s * L -> - L <= wallet + pm < L -> nov (w_check_market_order w c pos pm sd q p wallet).
Proof.
  intros Hp Hq Hok Hx HB Hw. pose proof s_pos as Hs. pose proof om_pos as Ho. pose proof (ci_volume _ _ _ _ _ Ci) as Cv.
  pose proof (ci_taker _ _ _ _ _ Ci) as Ct. pose proof (vc_imr _ Vc) as Hi.
  assert (Core : forall y, 0 < y <= x ->
    nov (w_convert_from w (c_kind c) s y p) /\
    nov (cmul w s (conv (c_kind c) s y p) (ct_imr (c_spec c))) /\ nov (cmul w s (conv (c_kind c) s y p) (ct_taker (c_spec c))) /\
    nov (cadd w (dmul s (conv (c_kind c) s y p) (ct_imr (c_spec c))) (dmul s (conv (c_kind c) s y p) (ct_taker (c_spec c))))).
  { intros y Hy. assert (om * y <= om * x) by (apply Z.mul_le_mono_nonneg_l; lia). assert (0 <= om * y) by mulpos.
    assert (Hy2 : om * Z.abs y < s * L) by (rewrite Z.abs_eq; lia).
    pose proof (conv_lt y p Hp Hy2). destruct (margin_weight c P y p Vc ltac:(lia) Hp) as [M1 M2].
    pose proof (fee_weight c P y p _ Hs Ct ltac:(lia) Hp) as F. destruct (conv_weight c P y p Hs ltac:(lia) Hp) as [C1 C2].
    unfold margin_of, fee_of in *. split; [apply nov_convert; assumption|]. split; [apply nov_rate; lia|]. split; [apply nov_rate; lia|].
    set (a := dmul s _ (ct_imr _)) in *. set (b := dmul s _ (ct_taker _)) in *. clearbody a b. set (v := conv _ _ _ _) in *. clearbody v.
    assert (a + Z.abs b < L); [apply scaled_lt | apply nov_add; lia].
    assert (s * Z.abs b <= s * v) by (apply Z.mul_le_mono_nonneg_l; lia). lia. }
  assert (Open : 0 < q <= x -> nov (w_check_market_open w c q p wallet)).
  { intros Hqx. destruct (Core q Hqx) as (K1 & K2 & K3 & K4). unfold w_check_market_open.
    nb Hv; [exact K1|]. apply convert_from_done in Hv. subst. np; [exact K2|]. np; [exact K3|]. np; [exact K4|]. apply nov_ret. }
  assert (Red : forall i, 0 < pi_qty i -> (pi_qty i < q -> q - pi_qty i <= x) -> nov (w_check_market_reduce w c i pm q p wallet)).
  { intros i H1 H2. unfold w_check_market_reduce. destruct (Z.leb_spec q (pi_qty i)); [apply nov_ret|].
    destruct (Core (q - pi_qty i) ltac:(lia)) as (K1 & K2 & K3 & K4).
    np; [apply nov_sub; lia|]. nb Hv; [exact K1|]. apply convert_from_done in Hv. subst. np; [exact K2|]. np; [exact K3|]. np; [exact K4|].
    np; [apply nov_add; lia|]. apply nov_ret. }
  unfold w_check_market_order. destruct sd, pos as [|i|i]; flat; first [apply Open; lia | apply Red; lia].
Qed.

(** ** Exchange *)
Variable G : Z.
Hypothesis HG : s * c_start c + om * (2 * Vt) <= G.

(** [V] contracts in [n] limit orders keep the ledger within range. *)
Definition lim (V n : Z) : Prop := s * c_start c + om * (5 * V) + 2 * n * G < s * L.

Lemma start_pos : 0 < s * c_start c.
Proof. apply Z.mul_pos_pos; [apply s_pos | apply (vc_start _ Vc)]. Qed.
Lemma G_pos : 0 <= G.
Proof. pose proof start_pos. pose proof (ci_volume _ _ _ _ _ Ci). pose proof om_pos. assert (0 <= om * (2 * Vt)) by mulpos. lia. Qed.

Lemma lim_less V n V' n' : lim V n -> V' <= V -> n' <= n -> lim V' n'.
Proof.
  unfold lim. intros H H1 H2. pose proof om_pos. pose proof G_pos.
  assert (om * V' <= om * V) by (apply Z.mul_le_mono_nonneg_l; lia). assert (n' * G <= n * G) by (apply Z.mul_le_mono_nonneg_r; lia). lia.
Qed.

(** What the bounds give. *)
Record Ready (V n : Z) (e : exchange) : Prop := {
  rd_room : room (ex_acc e);
  rd_load : 0 <= om * load (ex_om e);
  rd_pq : 0 <= om * pq (ex_pos e);
  rd_due : 0 <= s * Z.max 0 (due (ex_pos e));
  rd_om : 0 <= s * bal (ex_acc e) ORDER_MARGIN;
  rd_V : om * (5 * V) < s * L;
  rd_turn : turn (ex_trk e) < L;
  rd_book : om * load (ex_om e) <= om * V
}.

Lemma ready V n e : Mid c e -> bd_money c P G V n e -> 0 <= n -> lim V n -> Ready V n e.
Proof.
  intros M B Hn Hl. unfold lim in Hl. pose proof s_pos as Hs. pose proof om_pos as Ho. pose proof start_pos as Hst. pose proof G_pos as HG0.
  pose proof (load_nonneg _ (mi_good _ _ M)) as Hld. pose proof (pq_nonneg (ex_pos e)) as Hpq. pose proof (mi_om _ _ M) as Hom.
  assert (H1 : 0 <= om * load (ex_om e)) by mulpos. assert (H2 : 0 <= om * pq (ex_pos e)) by mulpos.
  assert (H3 : 0 <= s * Z.max 0 (due (ex_pos e))) by mulpos. assert (H4 : 0 <= s * bal (ex_acc e) ORDER_MARGIN) by mulpos.
  assert (0 <= n * G) by mulpos. destruct B.
  assert (Hv : om * (pq (ex_pos e) + load (ex_om e)) <= om * V) by (apply Z.mul_le_mono_nonneg_l; lia).
  constructor; try assumption; try lia.
  - split; [assumption|]. split; [assumption|]. apply scaled_lt. lia.
  - apply scaled_lt. lia.
Qed.

Lemma bal_pair acc : room acc -> - debit_sum acc <= bal acc WALLET + bal acc POSITION_MARGIN <= debit_sum acc.
Proof.
  intros (Hn & Hs & _). apply nonneg_each in Hn. unfold bal, margin_balance_of, net_balance, debit_sum, credit_sum in *. cbn in *. lia.
Qed.
Lemma bal_all acc : room acc -> - debit_sum acc <= bal acc WALLET + bal acc POSITION_MARGIN + bal acc ORDER_MARGIN <= debit_sum acc.
Proof.
  intros (Hn & Hs & _). apply nonneg_each in Hn. unfold bal, margin_balance_of, net_balance, debit_sum, credit_sum in *. cbn in *. lia.
Qed.

Lemma fee_lt q p rate : 0 <= q -> 0 <= p <= P -> Z.abs rate <= s -> s * Z.abs (fee_of c q p rate) <= om * q.
Proof.
  intros Hq Hp Hr. pose proof s_pos as Hs. pose proof (fee_weight c P q p rate Hs Hr Hq Hp) as F.
  destruct (conv_weight c P q p Hs Hq Hp) as [C1 C2]. eapply Z.le_trans; [apply Z.mul_le_mono_nonneg_l; [lia|exact F]|exact C2].
Qed.

Definition opens (d q : Z) (sd : side) (pos : position) : Prop :=
  d = q \/ (d = 0 /\ position_quantity pos + signed sd q = 0).

Lemma nov_settle V n N d e o :
  Mid c e -> bd_money c P G V n e -> (forall z, In z (counts (ex_trk e)) -> 0 <= z <= N) -> N + 2 < 2 ^ 64 ->
  0 <= n -> lim (V + d) n -> V + d <= Vt -> 0 <= fm_avg o <= P -> opens d (fm_qty o) (fm_side o) (ex_pos e) ->
  nov (w_settle_filled_market_order w c e o).
Proof.
  intros M B HN HN2 Hn Hl HV Hp Hd. pose proof s_pos as Hs. pose proof om_pos as Ho. pose proof L_pos as HL.
  unfold w_settle_filled_market_order. na Hq. na Hp2. apply assert_done in Hq, Hp2. set (q := fm_qty o) in *. set (p := fm_avg o) in *.
  assert (Hd0 : 0 <= d) by (destruct Hd as [->|[-> _]]; lia).
  pose proof (ready V n e M B Hn (lim_less _ _ V n Hl ltac:(lia) ltac:(lia))) as Rd.
  assert (HqV : q <= d + pq (ex_pos e)).
  { destruct Hd as [->|[-> E]]; [pose proof (pq_nonneg (ex_pos e)); lia|]. unfold pq, signed in *. destruct (fm_side o); lia. }
  assert (HqV2 : om * q <= om * d + om * pq (ex_pos e)) by (rewrite <- Z.mul_add_distr_l; apply Z.mul_le_mono_nonneg_l; lia).
  assert (0 <= om * d) by mulpos. assert (0 <= om * q) by mulpos.
  pose proof (load_nonneg _ (mi_good _ _ M)) as Hld. pose proof (pq_nonneg (ex_pos e)) as Hpq.
  assert (Hlm := Hl). unfold lim in Hlm. pose proof start_pos as Hst. pose proof G_pos as HG0. assert (0 <= n * G) by mulpos.
  assert (HqL : om * Z.abs q < s * L).
  { rewrite Z.abs_eq by lia. destruct B, Rd. assert (om * (pq (ex_pos e) + load (ex_om e)) <= om * V) by (apply Z.mul_le_mono_nonneg_l; lia). lia. }
  nb Hv; [apply nov_convert; assumption|]. apply convert_from_done in Hv. subst.
  np; [apply nov_rate; [apply conv_lt; assumption | apply (ci_taker _ _ _ _ _ Ci)]|].
  fold (fee_of c q p (ct_taker (c_spec c))).
  pose proof (fee_lt q p _ ltac:(lia) Hp (ci_taker _ _ _ _ _ Ci)) as Hf. set (f := fee_of _ _ _ _) in *. clearbody f.
  assert (Hf0 : 0 <= s * Z.abs f) by mulpos.
  nbp Hcp.
  { pose proof (mo_due _ _ _ _ _ _ _ _ _ B) as HD1. pose proof (mo_turn _ _ _ _ _ _ _ _ _ B) as HD2. pose proof (mo_size _ _ _ _ _ _ _ _ _ B) as HD3.
    assert (HsD : s * Z.abs (due (ex_pos e)) <= s * turn (ex_trk e)) by (apply Z.mul_le_mono_nonneg_l; lia).
    assert (Hfits : Z.abs (position_quantity (ex_pos e) + signed (fm_side o) q) <= V + d /\ q + Z.abs (position_quantity (ex_pos e) + signed (fm_side o) q) - pq (ex_pos e) <= 2 * d).
    { destruct Hd as [->|[-> E]].
      - unfold pq, signed in *. fold q. destruct (fm_side o); lia.
      - rewrite E. cbn. lia. }
    apply nov_change with (x := d); try assumption; try lia.
    - apply (rd_room _ _ _ Rd).
    - apply (mi_pos _ _ M).
    - apply (mo_entry _ _ _ _ _ _ _ _ _ B).
    - apply scaled_lt. destruct Rd. lia.
    - destruct Rd, B. lia. }
  assert (RM : roomy N (ex_trk e)) by (split; [assumption|]; destruct B, Rd; auto).
  np; [apply (nov_log N); try lia; assumption|].
  nb Ht2; [|apply nov_ret].
  assert (RM1 : roomy (N + 1) (log_market_order_fill (ex_trk e))).
  { destruct RM as (K1 & K2 & K3 & K4). split; [apply counts_add; try lia; assumption|]. unfold turn in *. cbn. lia. }
  apply (nov_log_trade (N + 1)); try assumption; try lia.
  replace (turn (log_market_order_fill (ex_trk e))) with (turn (ex_trk e)) by (unfold turn; cbn; lia).
  pose proof (mo_turn _ _ _ _ _ _ _ _ _ B). destruct Rd. lia.
Qed.

Lemma nov_submit_market V n N d e o :
  Bd c P T G V n N e -> N + 3 < 2 ^ 64 -> 0 <= n -> lim (V + d) n -> V + d <= Vt -> 0 < nm_qty o -> 
  opens d (nm_qty o) (nm_side o) (ex_pos e) -> nov (w_submit_market_order w c e o).
Proof.
  intros Bd0 HN Hn Hl HV Hq Hd. pose proof s_pos as Hs. pose proof om_pos as Ho. pose proof L_pos as HL. pose proof (ci_volume _ _ _ _ _ Ci) as Cv.
  assert (Hd0 : 0 <= d) by (destruct Hd as [->|[-> _]]; lia).
  pose proof Bd0 as [S B C F]. pose proof (sound_mid _ _ S) as M. destruct C as [Ct Cn Cs].
  pose proof (ready V n e M B Hn (lim_less _ _ V n Hl ltac:(lia) ltac:(lia))) as Rd.
  assert (RM : roomy N (ex_trk e)) by (split; [assumption|]; destruct B, Rd; auto).
  pose proof (mo_size _ _ _ _ _ _ _ _ _ B) as Hsz. pose proof (load_nonneg _ (mi_good _ _ M)) as Hld.
  assert (HqV : nm_qty o <= Vt).
  { destruct Hd as [->|[-> E]]; [pose proof (bd_nonneg _ _ _ _ _ _ _ _ Bd0); lia|]. unfold pq, signed in *. destruct (nm_side o); lia. }
  unfold w_submit_market_order. np; [apply (nov_log N); try lia; assumption|]. cbv zeta.
  nb Hv; [apply nov_quantity; lia|]. destruct a as [[]|err]; [|apply nov_ret].
  cbn [set_trk ex_next_id]. np; [apply nov_count; lia|]. cbn [set_next_id set_trk ex_pos ex_acc ex_ms].
  np; [apply nov_balance, (rd_room _ _ _ Rd)|]. np; [apply nov_balance, (rd_room _ _ _ Rd)|].
  assert (Hp : 0 <= (match nm_side o with Buy => ms_ask (ex_ms e) | Sell => ms_bid (ex_ms e) end) <= P).
  { destruct F. unfold price_in in *. destruct (nm_side o); assumption. }
  nb Hr.
  { apply nov_check_market with (x := d); try assumption; try lia.
    - apply (mi_pos _ _ M).
    - destruct Hd as [->|[-> E]]; [unfold pq, signed in *; destruct (nm_side o); lia | rewrite E; cbn].
      unfold pq, signed in *. destruct (nm_side o); lia.
    - unfold lim in Hl. pose proof start_pos. pose proof G_pos. assert (0 <= n * G) by mulpos. 
      pose proof (bd_nonneg _ _ _ _ _ _ _ _ Bd0). assert (0 <= om * V) by mulpos. assert (0 <= om * d) by mulpos. lia.
    - pose proof (bal_pair _ (rd_room _ _ _ Rd)) as Hb. destruct (rd_room _ _ _ Rd) as (_ & _ & Hb2). unfold bal in Hb. lia. }
  destruct a as [[]|err]; [|apply nov_ret]. nb Hst; [|apply nov_ret].
  set (e2 := set_next_id _ _).
  assert (B2 : Bd c P T G (V + 0) (n + 0) (N + 1) e2).
  { eapply bd_le; try eassumption; try lia; [apply G_pos | unfold same_core; cbn; tauto | cbn; lia | cbn; lia | cbn; lia | ].
    apply counts_add; try lia. assumption. }
  rewrite !Z.add_0_r in B2. destruct B2 as [S2 M2 C2 _]. eapply (nov_settle V n (N + 1) d); try eassumption; try lia.
  - apply sound_mid; assumption.
  - apply (cn_trk _ _ C2).
Qed.

Lemma nov_liquidate V n N e :
  Bd c P T G V n N e -> N + 3 < 2 ^ 64 -> 0 <= n -> lim V n -> V <= Vt -> nov (w_liquidate w c e).
Proof.
  intros B HN Hn Hl HV. unfold w_liquidate. na Ho.
  eapply nov_bind; [apply r_submit_market| |intros [e1 [r|err]] _; [apply nov_ret | apply nov_fine]].
  assert (X : 0 < nm_qty a /\ position_quantity (ex_pos e) + signed (nm_side a) (nm_qty a) = 0).
  { destruct (ex_pos e) as [|i|i]; [discriminate| |]; unfold market_new in Ho; destruct (Z.leb_spec (pi_qty i) 0); inv; cbn; lia. }
  destruct X as [X1 X2]. replace V with (V + 0) in Hl, HV by lia.
  eapply (nov_submit_market V n N 0); try eassumption. right. auto.
Qed.

Lemma nov_wallet acc : room acc -> nov (w_assert_user_wallet_balance w acc).
Proof. intros R. unfold w_assert_user_wallet_balance. np; [apply nov_balance; assumption | apply nov_fine]. Qed.
Lemma nov_empty e : room (ex_acc e) -> nov (w_empty_margin w e).
Proof. intros R. unfold w_empty_margin. destruct (ex_active e); [|apply nov_ret]. np; [apply nov_balance; assumption | apply nov_ret]. Qed.

Lemma money_priced V n book pos acc t : Money c P G V n book pos acc t -> priced P book.
Proof. intros B o Ho. apply (mo_book _ _ _ _ _ _ _ _ _ B o Ho). Qed.

Lemma pq_lt V n e : bd_money c P G V n e -> Mid c e -> V <= Vt -> pq (ex_pos e) < L /\ load (ex_om e) < L /\ load (ex_om e) <= V.
Proof.
  intros B M HV. pose proof (ci_volume _ _ _ _ _ Ci). pose proof (load_nonneg _ (mi_good _ _ M)). pose proof (pq_nonneg (ex_pos e)).
  pose proof (mo_size _ _ _ _ _ _ _ _ _ B). lia.
Qed.

Lemma nov_computed V n e : Mid c e -> bd_money c P G V n e -> 0 <= n -> lim V n -> V <= Vt -> nov (w_computed_order_margin w c e).
Proof.
  intros M B Hn Hl HV. pose proof (ready V n e M B Hn Hl) as Rd. destruct (pq_lt V n e B M HV) as (H1 & H2 & H3).
  unfold w_computed_order_margin. apply nov_om; try assumption.
  - apply (mi_good _ _ M).
  - eapply money_priced; exact B.
  - apply (mi_pos _ _ M).
  - destruct Rd. lia.
Qed.

(** An order appended to the book. *)
Lemma snoc_book V n e o : Mid c e -> bd_money c P G V n e -> 0 < lo_price o <= P -> 0 < lo_rem o -> 0 <= n -> lim (V + lo_rem o) n -> V + lo_rem o <= Vt ->
  good_book (ex_om e ++ [o]) /\ priced P (ex_om e ++ [o]) /\ load (ex_om e ++ [o]) < L /\ om * load (ex_om e ++ [o]) <= om * (V + lo_rem o) /\
  om * (5 * (V + lo_rem o)) < s * L.
Proof.
  intros M B Hp Hr Hn Hl HV. pose proof om_pos as Ho. pose proof (ci_volume _ _ _ _ _ Ci).
  destruct (pq_lt V n e B M ltac:(lia)) as (H1 & H2 & H3). rewrite load_app. repeat split.
  - apply in_app_or in H0 as [Hx|[<-|[]]]; [apply (mi_good _ _ M); assumption | lia].
  - apply in_app_or in H0 as [Hx|[<-|[]]]; [apply (mi_good _ _ M); assumption | lia].
  - intros x Hx. apply in_app_or in Hx as [Hx|[<-|[]]]; [eapply money_priced; [exact B | exact Hx] | lia].
  - lia.
  - apply Z.mul_le_mono_nonneg_l; lia.
  - unfold lim in Hl. pose proof start_pos. pose proof G_pos. assert (0 <= n * G) by mulpos. lia.
Qed.

Lemma nov_append V n e o :
  Mid c e -> bd_money c P G V n e -> get_by_id (ex_om e) (lo_id o) = None -> 0 < lo_price o <= P -> 0 < lo_rem o ->
  0 <= n -> lim (V + lo_rem o) (n + 1) -> V + lo_rem o <= Vt -> nov (w_append_limit_order w c e o).
Proof.
  intros M B Hfresh Hp Hr Hn Hl HV. pose proof s_pos as Hs. pose proof om_pos as Ho. pose proof L_pos as HL. pose proof G_pos as HG0.
  pose proof (ready V n e M B Hn (lim_less _ _ V n Hl ltac:(lia) ltac:(lia))) as Rd.
  assert (Hl1 : lim (V + lo_rem o) n) by (eapply lim_less; [exact Hl | lia | lia]).
  destruct (snoc_book V n e o M B Hp Hr Hn Hl1 HV) as (G1 & G2 & G3 & G4 & G5).
  destruct (pq_lt V n e B M ltac:(lia)) as (Q1 & Q2 & Q3).
  assert (HV0 : 0 <= om * (V + lo_rem o)).
  { pose proof (load_nonneg _ (mi_good _ _ M)). mulpos. }
  unfold w_append_limit_order. eapply nov_bind; [apply r_fine | apply nov_fine | intros [om' r] Hu]. cbv beta iota zeta. destruct r as [[]|err]; [|apply nov_ret].
  apply om_update_done in Hu as [_ [(_ & -> & _)|(old & E & _)]]; [|congruence].
  cbn [set_om ex_active]. destruct (book_insert _ _ _) as [act' [rr|err]]; [|apply nov_ret].
  unfold w_computed_order_margin. cbn [set_active set_om ex_om ex_pos ex_acc].
  nb Hnew; [apply nov_om; try assumption; [apply (mi_pos _ _ M)|lia]|].
  unfold computed_order_margin in Hnew. cbn in Hnew. rewrite om_eq in Hnew by (try assumption; apply (mi_pos _ _ M)). injection Hnew as <-.
  destruct (req_weight c P _ (ex_pos e) Vc Ho G1 G2) as [R1 R2]. set (new := req _ _ _) in *. clearbody new.
  np; [apply nov_balance, (rd_room _ _ _ Rd)|]. fold (bal (ex_acc e) ORDER_MARGIN).
  pose proof (mi_om _ _ M) as Hom. pose proof (mo_om _ _ _ _ _ _ _ _ _ B) as HomG. set (old := bal (ex_acc e) ORDER_MARGIN) in *.
  assert (Hnew : s * new <= G).
  { assert (om * (V + lo_rem o) <= om * Vt) by (apply Z.mul_le_mono_nonneg_l; lia). pose proof start_pos.
    assert (0 <= om * Vt) by (pose proof (ci_volume _ _ _ _ _ Ci); mulpos). lia. }
  assert (Hbig : forall amt, 0 <= amt -> (amt <= new \/ amt <= old) -> debit_sum (ex_acc e) + amt < L).
  { intros amt H0 Hamt. apply scaled_lt. assert (s * amt <= G).
    { destruct Hamt as [H1|H1]; (eapply Z.le_trans; [apply Z.mul_le_mono_nonneg_l; [lia|exact H1]|assumption]). }
    pose proof (mo_phi _ _ _ _ _ _ _ _ _ B) as Phi. unfold lim in Hl. assert (0 <= om * lo_rem o) by mulpos. destruct Rd. lia. }
  pose proof (room_nonneg _ (rd_room _ _ _ Rd)) as HD.
  assert (Rest : forall amt, 0 <= amt -> (amt <= new \/ amt <= old) -> nov (
    acc <~ w_transfer w (c_dbg c) (ex_acc e) ORDER_MARGIN WALLET amt ;;
    _ <~ Fine (assert (orders_eqb (ex_om (set_acc (set_active (set_om e (ex_om e ++ [o])) act') acc)) (ex_active (set_acc (set_active (set_om e (ex_om e ++ [o])) act') acc))) PAppendBooks) ;;
    b <~ w_empty_margin w (set_acc (set_active (set_om e (ex_om e ++ [o])) act') acc) ;;
    _ <~ Fine (assert b PAppendEmptyMargin) ;;
    _ <~ w_assert_user_wallet_balance w (ex_acc (set_acc (set_active (set_om e (ex_om e ++ [o])) act') acc)) ;;
    ret (set_acc (set_active (set_om e (ex_om e ++ [o])) act') acc, Ok (E := error) tt))).
  { intros amt H0 Hamt. specialize (Hbig amt H0 Hamt). nb Ht; [apply nov_transfer; [apply (rd_room _ _ _ Rd)|assumption]|].
    apply transfer_done in Ht as (Ha & _ & ->).
    assert (R' : room (transfer_pure (ex_acc e) ORDER_MARGIN WALLET amt)) by (apply room_transfer; try assumption; [discriminate | apply (rd_room _ _ _ Rd)]).
    na Hx. np; [apply nov_empty; exact R'|]. na Hx2. nb Hx3; [apply nov_wallet; exact R'|]. apply nov_ret. }
  assert (Hnl : new < L) by (pose proof (Hbig new ltac:(lia) ltac:(lia)); lia).
  assert (Hol : old < L) by (pose proof (Hbig old ltac:(lia) ltac:(lia)); lia).
  destruct (Z.compare_spec new old); [apply nov_ret| |].
  - np; [apply nov_sub; lia|]. apply Rest; lia.
  - np; [apply nov_sub; lia|]. apply Rest; lia.
Qed.

Lemma nov_submit_limit V n N e o :
  Bd c P T G V n N e -> nl_ok o -> nl_price o <= P -> N + 3 < 2 ^ 64 -> 0 <= n -> lim (V + nl_rem o) (n + 1) -> V + nl_rem o <= Vt ->
  nov (w_submit_limit_order w c e o).
Proof.
  intros Bd0 [Ho1 Ho2] HP HN Hn Hl HV. pose proof s_pos as Hs. pose proof om_pos as Ho. pose proof L_pos as HL. pose proof (ci_volume _ _ _ _ _ Ci) as Cv.
  pose proof Bd0 as [S B C F]. pose proof (sound_mid _ _ S) as M. destruct C as [Ct Cn Cs].
  pose proof (bd_nonneg _ _ _ _ _ _ _ _ Bd0) as [HV0 _].
  pose proof (ready V n e M B Hn (lim_less _ _ V n Hl ltac:(lia) ltac:(lia))) as Rd.
  assert (RM : roomy N (ex_trk e)) by (split; [assumption|]; destruct B, Rd; auto).
  destruct (nov_mid (ex_ms e) (fd_bid _ _ _ _ F) (fd_ask _ _ _ _ F)) as [Hmid1 Hmid2].
  unfold w_submit_limit_order. np; [apply (nov_log N); try lia; assumption|]. cbv zeta.
  nb Hv; [apply nov_quantity; lia|]. destruct a as [[]|err]; [|apply nov_ret]. cbn [set_trk ex_ms ex_next_id].
  np; [exact Hmid1|]. nb Hp; [apply nov_limit_price; assumption|]. destruct a as [[]|err]; [|apply nov_ret].
  np; [apply nov_count; lia|]. cbn [set_next_id set_trk ex_acc ex_pos ex_om].
  np; [apply nov_balance, (rd_room _ _ _ Rd)|].
  set (ord := limit_into_pending o (ex_next_id e) (ms_ts (ex_ms e))).
  assert (Hl1 : lim (V + lo_rem ord) n) by (eapply lim_less; [exact Hl | cbn; lia | lia]).
  destruct (snoc_book V n e ord M B ltac:(cbn; lia) ltac:(cbn; lia) Hn Hl1 ltac:(cbn; lia)) as (G1 & G2 & G3 & G4 & G5).
  destruct (pq_lt V n e B M ltac:(lia)) as (Q1 & Q2 & Q3).
  assert (HVr : 0 <= om * (V + lo_rem ord)) by (cbn; mulpos).
  nb Hr.
  { unfold w_check_limit_order. assert (Hom1 : om * load (ex_om e) < s * L) by (destruct Rd; lia).
    nb Hom; [apply nov_om; try assumption; [apply (mi_good _ _ M) | eapply money_priced; exact B | apply (mi_pos _ _ M)]|].
    rewrite om_eq in Hom by (first [assumption | apply (mi_good _ _ M) | apply (mi_pos _ _ M)]). injection Hom as <-.
    rewrite w_with_order_eq. eapply nov_bind; [apply r_om | apply nov_om; try assumption; [apply (mi_pos _ _ M) | lia] | intros new _].
    destruct (req_weight c P (ex_om e) (ex_pos e) Vc Ho (mi_good _ _ M) (money_priced _ _ _ _ _ _ B)) as [R1 R2].
    np; [|apply nov_ret]. pose proof (bal_range _ WALLET (rd_room _ _ _ Rd)) as Hw. unfold bal in Hw.
    destruct (rd_room _ _ _ Rd) as (_ & _ & HD). set (rq := req _ _ _) in *. clearbody rq.
    apply nov_add. split; [lia|]. apply Z.le_lt_trans with (debit_sum (ex_acc e) + rq); [lia|]. apply scaled_lt.
    pose proof (mo_phi _ _ _ _ _ _ _ _ _ B) as Phi. pose proof (lim_less _ _ V n Hl ltac:(lia) ltac:(lia)) as Hl0. unfold lim in Hl0. destruct Rd. lia. }
  destruct a as [[]|err]; [|apply nov_ret]. destruct (marketable _ _); [apply nov_ret|].
  nbp Ha; [|destruct r as [[]|err]; apply nov_ret].
  set (e2 := set_next_id _ _).
  assert (B2 : Bd c P T G (V + 0) (n + 0) (N + 1) e2).
  { eapply bd_le; try eassumption; try lia; [apply G_pos | unfold same_core; cbn; tauto | cbn; lia | cbn; lia | cbn; lia | ].
    apply counts_add; try lia. assumption. }
  rewrite !Z.add_0_r in B2. destruct B2 as [S2 M2 C2 _]. eapply (nov_append V n); try eassumption; try (cbn; lia).
  - apply sound_mid; assumption.
  - cbn. rewrite (inv_books _ _ (so_inv _ _ S)). apply get_by_id_none. apply (inv_fresh _ _ (so_inv _ _ S)).
Qed.

Lemma nov_cancel V n N e b :
  Bd c P T G V n N e -> N + 3 < 2 ^ 64 -> 0 <= n -> lim V n -> V <= Vt -> nov (w_cancel_limit_order w c e b).
Proof.
  intros Bd0 HN Hn Hl HV. pose proof s_pos as Hs. pose proof om_pos as Ho. pose proof L_pos as HL.
  pose proof Bd0 as [S B C F]. pose proof (sound_mid _ _ S) as M. destruct C as [Ct Cn Cs].
  pose proof (ready V n e M B Hn Hl) as Rd.
  assert (RM : roomy N (ex_trk e)) by (split; [assumption|]; destruct B, Rd; auto).
  unfold w_cancel_limit_order. np; [apply nov_balance, (rd_room _ _ _ Rd)|]. fold (bal (ex_acc e) ORDER_MARGIN).
  nb Hc; [eapply nov_computed; eassumption|]. na Heq. clear Heq Hc a.
  assert (K : forall (removed : limit_order) act', remove_with (ex_active e) b = Some (removed, act') -> nov (
       om' <~ Fine (om_remove (ex_om (set_active e act')) b) ;;
       new_om <~ w_computed_order_margin w c (set_om (set_active e act') om') ;;
       _ <~ Fine (assert (new_om <=? bal (ex_acc e) ORDER_MARGIN) PCancelMarginGrows) ;;
       e3 <~ (if new_om <? bal (ex_acc e) ORDER_MARGIN then
                delta <~ csub w (bal (ex_acc e) ORDER_MARGIN) new_om ;;
                acc <~ w_transfer w (c_dbg c) (ex_acc (set_om (set_active e act') om')) WALLET ORDER_MARGIN delta ;;
                ret (set_acc (set_om (set_active e act') om') acc)
              else ret (set_om (set_active e act') om')) ;;
       t <~ w_log_limit_order_cancellation w (ex_trk e3) ;;
       _ <~ Fine (assert (orders_eqb (ex_om (set_trk e3 t)) (ex_active (set_trk e3 t))) PCancelBooks) ;;
       b0 <~ w_empty_margin w (set_trk e3 t) ;;
       _ <~ Fine (assert b0 PCancelEmptyMargin) ;;
       ret (set_trk e3 t, Ok (E := error) removed))).
  { intros removed act' Hrem. na Hom. cbn [set_active ex_om] in Hom. rename a into om'.
    pose proof (good_remove _ _ _ (mi_good _ _ M) Hom) as Gb.
    assert (om' = act').
    { unfold om_remove in Hom. rewrite (inv_books _ _ (so_inv _ _ S)) in Hom. unfold remove_with in Hrem. rewrite Hrem in Hom. congruence. }
    subst om'. apply remove_with_spec in Hrem as (_ & Hin & Hperm). rewrite <- (inv_books _ _ (so_inv _ _ S)) in Hperm, Hin.
    assert (Hld : load act' <= load (ex_om e)).
    { rewrite (load_perm _ _ Hperm). unfold load, sumZ. cbn. destruct (mi_good _ _ M removed Hin). lia. }
    assert (Hpr : priced P act').
    { intros x Hx. eapply money_priced; [exact B|]. eapply Permutation_in; [apply Permutation_sym; exact Hperm | right; assumption]. }
    destruct (pq_lt V n e B M HV) as (Q1 & Q2 & Q3). pose proof (load_nonneg _ Gb) as Hl0.
    assert (om * load act' <= om * load (ex_om e)) by (apply Z.mul_le_mono_nonneg_l; lia).
    nb Hnew.
    { unfold w_computed_order_margin. cbn [set_om set_active ex_om ex_pos]. apply nov_om; try assumption; [apply (mi_pos _ _ M) | lia | destruct Rd; lia]. }
    unfold computed_order_margin in Hnew. cbn in Hnew. rewrite om_eq in Hnew by (try assumption; apply (mi_pos _ _ M)). injection Hnew as <-.
    pose proof (req_ge0 c act' (ex_pos e) Vc Gb) as R1. set (new := req _ _ _) in *. clearbody new. na Hle.
    set (old := bal (ex_acc e) ORDER_MARGIN) in *.
    assert (Hold : debit_sum (ex_acc e) + old < L).
    { apply scaled_lt. pose proof (mo_phi _ _ _ _ _ _ _ _ _ B) as Phi. unfold lim in Hl. destruct Rd. fold old in Phi. lia. }
    pose proof (room_nonneg _ (rd_room _ _ _ Rd)) as HD. pose proof (mi_om _ _ M) as Hom0. fold old in Hom0.
    cbn [set_om set_active ex_acc].
    eapply nov_bind with (n := if new <? old then acc <- transfer (c_dbg c) (ex_acc e) WALLET ORDER_MARGIN (old - new) ;;
                                 Done (set_acc (set_om (set_active e act') act') acc) else Done (set_om (set_active e act') act')).
    { destruct (new <? old); [|apply r_ret]. eapply r_pure; [apply r_csub|]. apply r_bind; [apply r_transfer | intros; apply r_ret]. }
    { destruct (Z.ltb_spec new old); [|apply nov_ret]. np; [apply nov_sub; lia|]. nb Ht; [|apply nov_ret].
      apply nov_transfer; [apply (rd_room _ _ _ Rd) | lia]. }
    intros e3 He3.
    assert (X : room (ex_acc e3) /\ ex_trk e3 = ex_trk e).
    { destruct (Z.ltb_spec new old).
      - apply bind_done in He3 as (acc1 & Ht & He3). apply transfer_done in Ht as (Ha & _ & ->). injection He3 as <-. cbn. split; [|reflexivity].
        apply room_transfer; [discriminate | lia | apply (rd_room _ _ _ Rd) | lia].
      - injection He3 as <-. cbn. split; [apply (rd_room _ _ _ Rd) | reflexivity]. }
    destruct X as [X1 X2]. rewrite X2. np; [apply (nov_log N); try lia; assumption|]. na Hy. np; [apply nov_empty; exact X1|]. na Hy2. apply nov_ret. }
  destruct b as [id|uid].
  - destruct (remove_by_order_id (ex_active e) id) as [[removed act']|] eqn:E; [apply K; exact E | apply nov_ret].
  - destruct (remove_by_user_order_id (ex_active e) uid) as [[removed act']|] eqn:E; [apply K; exact E | apply nov_ret].
Qed.

Lemma nov_amend V n N e id o :
  Bd c P T G V n N e -> nl_ok o -> nl_price o <= P -> N + 4 < 2 ^ 64 -> 0 <= n -> lim (V + nl_rem o) (n + 1) -> V + nl_rem o <= Vt ->
  nov (w_amend_limit_order w c e id o).
Proof.
  intros Bd0 [Ho1 Ho2] HP HN Hn Hl HV. pose proof L_pos as HL. pose proof (ci_volume _ _ _ _ _ Ci) as Cv.
  pose proof (bd_nonneg _ _ _ _ _ _ _ _ Bd0) as [HV0 _].
  assert (Hcan : nov (w_cancel_limit_order w c e (ByOrderId id))).
  { eapply (nov_cancel V n N); try eassumption; try lia. eapply lim_less; [exact Hl | lia | lia]. }
  pose proof Bd0 as [S B C F]. unfold w_amend_limit_order.
  destruct (get_by_id (ex_active e) id) as [x|] eqn:Ex; [|apply nov_ret].
  apply get_by_id_in in Ex as [Ex _]. pose proof (order_filled_nonneg _ _ _ (so_inv _ _ S) Ex) as Hfq.
  destruct (inv_good _ _ (so_inv _ _ S) x Ex) as [Hrem _].
  assert (Hoi : order_in P V x) by (apply (mo_book _ _ _ _ _ _ _ _ _ B); rewrite (inv_books _ _ (so_inv _ _ S)); assumption).
  assert (Hoi2 : order_in P Vt x) by (unfold order_in in *; intuition lia).
  nb Htot; [apply nov_total; assumption|].
  assert (Etot : a = lo_rem x + lo_filled_qty x).
  { unfold lo_total_quantity in Htot. unfold lo_filled_qty. destruct (lo_filled x); inv; lia. }
  subst a. destruct Hoi as (_ & Hsz & _).
  np; [apply nov_sub; lia|]. np; [apply nov_add; lia|]. destruct (Z.leb_spec (lo_rem x + (nl_rem o - (lo_rem x + lo_filled_qty x))) 0).
  - nbp Hc; [exact Hcan|]. destruct r; [apply nov_ret | apply nov_fine].
  - na Hset. unfold set_remaining_quantity in Hset. apply bind_done in Hset as (? & _ & Hset). injection Hset as <-.
    nbp Hc; [exact Hcan|]. destruct r as [y|err]; [|apply nov_ret].
    apply cancel_spec in Hc as [_ Hc]. pose proof (cancel_bd _ _ _ _ _ _ _ _ _ _ _ Vc Bd0 Hc) as B2.
    eapply (nov_submit_limit V n (N + 1)); try eassumption; cbn [nl_rem nl_price]; try lia.
    + split; cbn; lia.
    + eapply lim_less; [exact Hl | lia | lia].
Qed.

(** ** Fills *)
Definition w_fill_tail (old_om : Z) (e1 : exchange) (ids1 : list Z) (o' : limit_order) (q : Z) : checked (exchange * list Z * limit_order) :=
      value <~ w_convert_from w (c_kind c) s q (lo_price o') ;;
      fees <~ cmul w s value (ct_maker (c_spec c)) ;;
      '(pos, acc) <~ w_change_position w c (ex_pos e1) (ex_acc e1) q (lo_price o') (lo_side o') fees ;;
      let e2 := set_acc (set_pos e1 pos) acc in
      t2 <~ w_log_trade w c (ex_trk e2) (lo_side o') (lo_price o') q ;;
      let e3 := set_trk e2 t2 in
      new_om <~ w_computed_order_margin w c e3 ;;
      _ <~ Fine (debug_assert (c_dbg c) (new_om <=? old_om) PFillMarginGrowsDebug) ;;
      e4 <~ (if new_om <? old_om then
               delta <~ csub w old_om new_om ;;
               acc' <~ w_transfer w (c_dbg c) (ex_acc e3) WALLET ORDER_MARGIN delta ;;
               ret (set_acc e3 acc')
             else ret e3) ;;
      ret (e4, ids1, o').

Lemma nov_fill_tail V n N e e1 ids1 o q :
  Mid c e -> bd_money c P G V n e -> roomy N (ex_trk e1) -> N + 2 < 2 ^ 64 -> turn (ex_trk e1) = turn (ex_trk e) ->
  0 <= n -> lim V n -> V <= Vt -> In o (ex_om e) -> 0 < q <= lo_rem o -> ex_acc e1 = ex_acc e -> ex_pos e1 = ex_pos e ->
  (if q =? lo_rem o then om_remove (ex_om e) (ByOrderId (lo_id o)) = Done (ex_om e1)
   else om_update (c_max c) (ex_om e) (after_fill s o q) = Done (ex_om e1, Ok tt)) ->
  nov (w_fill_tail (bal (ex_acc e) ORDER_MARGIN) e1 ids1 (after_fill s o q) q).
Proof.
  intros M B HN HN2 Hturn Hn Hl HV Hin Hq Ea Ep Hbook. pose proof s_pos as Hs. pose proof om_pos as Ho. pose proof L_pos as HL.
  pose proof (ready V n e M B Hn Hl) as Rd. destruct (mi_good _ _ M o Hin) as [Hrem Hp0].
  destruct (mo_book _ _ _ _ _ _ _ _ _ B o Hin) as (HpP & _).
  destruct (fill_book _ _ _ _ _ (mi_nodup _ _ M) Hin Hq Hbook) as [Hload Hinb].
  assert (Gb : good_book (ex_om e1)).
  { destruct (q =? lo_rem o); [eapply good_remove; [apply (mi_good _ _ M)|exact Hbook] | eapply good_update; [apply (mi_good _ _ M)| |exact Hbook]; cbn; lia]. }
  assert (Pb : priced P (ex_om e1)).
  { intros x Hx. destruct (Hinb x Hx) as [Hx2|[-> _]]; [eapply money_priced; [exact B|exact Hx2] | cbn; lia]. }
  destruct (pq_lt V n e B M HV) as (Q1 & Q2 & Q3). pose proof (load_nonneg _ Gb) as Hld1. pose proof (pq_nonneg (ex_pos e)) as Hpq.
  pose proof (mo_size _ _ _ _ _ _ _ _ _ B) as Hsz.
  assert (Hlm := Hl). unfold lim in Hlm. pose proof start_pos as Hst. pose proof G_pos as HG0. assert (0 <= n * G) by mulpos.
  assert (Hq0 : 0 <= om * q) by mulpos. assert (Hql : om * q <= om * load (ex_om e)) by (apply Z.mul_le_mono_nonneg_l; lia).
  assert (Hld2 : 0 <= om * load (ex_om e1)) by mulpos. assert (Hld3 : om * load (ex_om e1) = om * load (ex_om e) - om * q) by (rewrite Hload; lia).
  unfold w_fill_tail. cbn [after_fill lo_price lo_side].
  nb Hv; [apply nov_convert; [lia | rewrite Z.abs_eq by lia; destruct Rd; lia]|]. apply convert_from_done in Hv. subst.
  np; [apply nov_rate; [apply conv_lt; [lia | rewrite Z.abs_eq by lia; destruct Rd; lia] | apply (ci_maker _ _ _ _ _ Ci)]|].
  fold (fee_of c q (lo_price o) (ct_maker (c_spec c))).
  pose proof (fee_lt q (lo_price o) _ ltac:(lia) ltac:(lia) (ci_maker _ _ _ _ _ Ci)) as Hf. set (f := fee_of _ _ _ _) in *. clearbody f.
  assert (Hf0 : 0 <= s * Z.abs f) by mulpos. rewrite Ea, Ep.
  pose proof (mo_due _ _ _ _ _ _ _ _ _ B) as HD1. pose proof (mo_turn _ _ _ _ _ _ _ _ _ B) as HD2.
  pose proof (mo_phi _ _ _ _ _ _ _ _ _ B) as Phi.
  assert (HsD : s * Z.abs (due (ex_pos e)) <= s * turn (ex_trk e)) by (apply Z.mul_le_mono_nonneg_l; lia).
  pose proof (ci_volume _ _ _ _ _ Ci) as Cv.
  nbp Hcp.
  { assert (Hfits : Z.abs (position_quantity (ex_pos e) + signed (lo_side o) q) <= pq (ex_pos e) + q /\ q + Z.abs (position_quantity (ex_pos e) + signed (lo_side o) q) - pq (ex_pos e) <= 2 * q).
    { unfold pq, signed in *. destruct (lo_side o); lia. }
    apply nov_change with (x := q); try assumption; try lia.
    - apply (rd_room _ _ _ Rd).
    - apply (mi_pos _ _ M).
    - apply (mo_entry _ _ _ _ _ _ _ _ _ B).
    - apply scaled_lt. destruct Rd. lia.
    - destruct Rd. lia. }
  cbv zeta. cbn [set_acc set_pos ex_trk]. rename a into acc1, p into pos1.
  apply change_position_cases in Hcp.
  nb Ht2. { apply (nov_log_trade N); try assumption; try lia. }
  pose proof (cp_om _ _ _ _ _ _ _ _ _ Hcp) as Hom1. pose proof (cp_pos_ok _ _ _ _ _ _ _ _ _ Hcp (mi_pos _ _ M)) as Hpok.
  destruct (cp_bound c P _ _ _ _ _ _ _ _ Vc (conj (Z.lt_le_incl _ _ Hp0) HpP) Hf (mi_pos _ _ M) (mo_entry _ _ _ _ _ _ _ _ _ B) Hcp)
    as (_ & He' & k & K1 & K2 & Kp & Kd & Kphi & Kown).
  nb Hnew.
  { unfold w_computed_order_margin. cbn [set_trk set_acc set_pos ex_om ex_pos]. apply nov_om; try assumption; try lia. }
  unfold computed_order_margin in Hnew. cbn [set_trk set_acc set_pos ex_om ex_pos] in Hnew. rewrite om_eq in Hnew by assumption. injection Hnew as <-.
  pose proof (req_ge0 c (ex_om e1) pos1 Vc Gb) as R1. set (new := req _ _ _) in *. clearbody new. na Hle.
  set (old := bal (ex_acc e) ORDER_MARGIN) in *. cbn [set_trk set_acc set_pos ex_acc].
  eapply nov_bind with (n := if new <? old then acc <- transfer (c_dbg c) acc1 WALLET ORDER_MARGIN (old - new) ;;
                                 Done (set_acc (set_trk (set_acc (set_pos e1 pos1) acc1) a) acc) else Done (set_trk (set_acc (set_pos e1 pos1) acc1) a)).
  { destruct (new <? old); [|apply r_ret]. eapply r_pure; [apply r_csub|]. apply r_bind; [apply r_transfer | intros; apply r_ret]. }
  2: intros; apply nov_ret.
  destruct (Z.ltb_spec new old); [|apply nov_ret].
  pose proof (cp_tpath _ _ _ _ _ _ _ _ _ Hcp) as Tp. destruct (rd_room _ _ _ Rd) as (N1 & N2 & _).
  assert (0 <= om * k) by mulpos. assert (0 <= om * pq pos1) by (pose proof (pq_nonneg pos1); mulpos).
  assert (0 <= s * Z.max 0 (due pos1)) by mulpos.
  assert (HX : debit_sum acc1 + old < L). { apply scaled_lt. destruct Rd. lia. }
  pose proof (mi_om _ _ M) as Hom0. fold old in Hom0.
  assert (R' : room acc1).
  { split; [eapply tpath_nonneg; eassumption|]. split; [eapply tpath_sums; eassumption|lia]. }
  pose proof (room_nonneg _ R').
  np; [apply nov_sub; lia|]. nb Ht; [apply nov_transfer; [exact R' | lia] | apply nov_ret].
Qed.

Lemma nov_fill_one V n N u e ids o :
  Mid c e -> bd_money c P G V n e -> (forall z, In z (counts (ex_trk e)) -> 0 <= z <= N) -> N + 3 < 2 ^ 64 ->
  0 <= n -> lim V n -> V <= Vt -> In o (ex_om e) -> nov (w_fill_one w c u e ids o).
Proof.
  intros M B HN HN2 Hn Hl HV Hin. pose proof (ready V n e M B Hn Hl) as Rd. destruct (mi_good _ _ M o Hin) as [Hrem Hp0].
  pose proof (mo_book _ _ _ _ _ _ _ _ _ B o Hin) as Hoi. assert (Hoi2 : order_in P Vt o) by (unfold order_in in *; intuition lia).
  assert (RM : roomy N (ex_trk e)) by (split; [assumption|]; destruct B, Rd; auto).
  assert (RM1 : forall full, let t1 := log_limit_order_fill (ex_trk e) full in roomy (N + 1) t1 /\ turn t1 = turn (ex_trk e)).
  { intros full. cbv zeta. unfold log_limit_order_fill. destruct RM as (A1 & A2 & A3 & A4).
    split; [|unfold turn; cbn; lia]. split; [apply counts_add; try lia; [assumption | destruct full; lia]|]. unfold turn in *. cbn. lia. }
  unfold w_fill_one. cbv zeta. na Hf. destruct a as [q|]; [|apply nov_ret]. na Hz.
  np; [apply nov_balance, (rd_room _ _ _ Rd)|]. fold (bal (ex_acc e) ORDER_MARGIN).
  eapply nov_bind; [apply r_debug_assert; eapply r_bind; [apply r_computed | intros; apply r_ret] | | intros _ _].
  { apply nov_debug. nb Hx; [eapply nov_computed; eassumption | apply nov_ret]. }
  nbp Hof; [apply nov_order_fill; assumption|]. apply order_fill_spec in Hof as (Hq & -> & ->).
  match goal with |- nov (cbind ?m _) => set (part := m) end.
  change (nov ('(e1, ids1) <~ part ;; w_fill_tail (bal (ex_acc e) ORDER_MARGIN) e1 ids1 (after_fill s o q) q)).
  assert (X : nov part /\ forall e1 ids1, part = Fine (Done (e1, ids1)) -> nov (w_fill_tail (bal (ex_acc e) ORDER_MARGIN) e1 ids1 (after_fill s o q) q)).
  { subst part. cbn [after_fill lo_id lo_rem]. destruct (q =? lo_rem o) eqn:Eq.
    - assert (Hlog : w_log_limit_order_fill w (ex_trk e) true = ret (log_limit_order_fill (ex_trk e) true)).
      { destruct (r_log_fill w (ex_trk e) true) as [E|E]; [|exact E]. exfalso. revert E. apply (nov_log N); try lia; assumption. }
      rewrite Hlog. unfold ret at 1 3. cbn [cbind]. destruct (om_remove (ex_om e) (ByOrderId (lo_id o))) as [om'|pp] eqn:Er; cbn [cbind].
      + split; [apply nov_ret|]. intros e1 ids1 E. unfold ret in E. injection E as <- <-.
        destruct (RM1 true). eapply (nov_fill_tail V n (N + 1)); try eassumption; try reflexivity; try lia. rewrite Eq. exact Er.
      + split; [apply nov_fine | discriminate].
    - assert (Hlog : w_log_limit_order_fill w (ex_trk e) false = ret (log_limit_order_fill (ex_trk e) false)).
      { destruct (r_log_fill w (ex_trk e) false) as [E|E]; [|exact E]. exfalso. revert E. apply (nov_log N); try lia; assumption. }
      unfold debug_assert, assert. assert (Hpos : 0 <? lo_rem o - q = true) by lia. rewrite Hpos, Hlog.
      replace (if c_dbg c then Done tt else Done tt) with (Done tt) by (destruct (c_dbg c); reflexivity).
      unfold ret at 1 3. cbn [cbind]. destruct (om_update (c_max c) (ex_om e) (after_fill s o q)) as [[om' [[]|err]]|pp] eqn:Er; cbn [cbind].
      + split; [apply nov_ret|]. intros e1 ids1 E. unfold ret in E. injection E as <- <-.
        destruct (RM1 false). eapply (nov_fill_tail V n (N + 1)); try eassumption; try reflexivity; try lia. rewrite Eq. exact Er.
      + split; [apply nov_fine | discriminate].
      + split; [apply nov_fine | discriminate]. }
  destruct X as [X1 X2]. clearbody part. destruct part as [[[e1 ids1]|pp]|]; cbn [cbind]; [apply X2; reflexivity | apply nov_fine | exfalso; apply X1; reflexivity].
Qed.

Lemma nov_fill_loop V n u todo : 0 <= n -> lim V n -> V <= Vt -> forall N e ids,
  Mid c e -> bd_money c P G V n e -> (forall z, In z (counts (ex_trk e)) -> 0 <= z <= N) -> N + Z.of_nat (length todo) + 3 < 2 ^ 64 ->
  todo_in (ex_om e) todo -> nov (w_fill_loop w c u e ids todo).
Proof.
  intros Hn Hl HV. induction todo as [|o rest IH]; intros N e ids M B HN HN2 (T1 & T2 & T3); cbn [w_fill_loop length] in *; [apply nov_ret|].
  assert (Ho : In o (ex_om e)) by (apply T3; left; reflexivity). inversion T2 as [|? ? Hni Hnd]; subst.
  eapply nov_bind; [apply r_fill_one | apply (nov_fill_one V n N); try assumption; lia | intros [[e1 ids1] o1] Hf]. cbv beta iota.
  eapply nov_bind; [apply r_fill_loop | | intros [[e2 ids2] l2] _; apply nov_ret].
  apply fill_one_spec in Hf as (f & Hf & Hcase). destruct f as [q|].
  - destruct Hcase as (Fe & _ & _). destruct (fe_nodup _ _ _ _ _ _ T1 Ho Fe) as [Hn2 Hk].
    apply (IH (N + 1)); [eapply fe_mid; eassumption | eapply fe_money; try eassumption; apply rates | | lia |].
    + pose proof (fills_counts c u e [o] e1 N) as X. cbn in X. apply X; [|assumption].
      eapply fills_some; [|exact Fe|apply fills_nil]. unfold fillq. rewrite Hf. reflexivity.
    + split; [assumption|]. split; [assumption|]. intros x Hx. apply Hk; [|apply T3; right; assumption].
      intros E. apply Hni. rewrite <- E. apply in_map; assumption.
  - destruct Hcase as (-> & _ & _). apply (IH N); try assumption; [lia|]. split; [assumption|]. split; [assumption|].
    intros x Hx; apply T3; right; assumption.
Qed.

Lemma nov_check V n N e u :
  Bd c P T G V n N e -> N + 10003 < 2 ^ 64 -> 0 <= n -> lim V n -> V <= Vt -> nov (w_check_active_orders w c e u).
Proof.
  intros Bd0 HN Hn Hl HV. pose proof Bd0 as [S B C F]. unfold w_check_active_orders. cbv zeta.
  destruct (negb (can_fill u)); [apply nov_ret|]. na Hb.
  assert (M0 : Mid c (set_updates e [])) by (pose proof (sound_mid _ _ S) as M; destruct M; constructor; cbn; auto).
  assert (T0 : todo_in (ex_om (set_updates e [])) (ex_active e)) by (cbn; apply (inv_todo c e), (so_inv _ _ S)).
  pose proof (inv_len _ _ (so_inv _ _ S)) as Hlen. pose proof (proj2 (vc_max _ Vc)) as Hmax.
  eapply nov_bind; [apply r_fill_loop | apply (nov_fill_loop V n u _ Hn Hl HV N); try assumption; [apply (cn_trk _ _ C) | cbn; lia] | intros [[e1 ids] arena] Hf].
  cbv beta iota. apply fill_loop_spec in Hf as (_ & Hf & _ & _). cbn [set_updates ex_active] in Hf.
  pose proof (fills_mid _ _ _ _ _ Vc Hf M0 T0) as M1. pose proof (fills_money _ _ _ _ _ _ _ _ _ Vc rates Hf M0 T0 B) as B1.
  pose proof (ready V n e1 M1 B1 Hn Hl) as Rd. na Hr. na Hb2.
  eapply nov_bind; [apply r_debug_assert, r_empty | apply nov_debug, nov_empty, (rd_room _ _ _ Rd) | intros _ _].
  eapply nov_bind; [apply r_debug_assert; eapply r_bind; [apply r_balance | intros; eapply r_bind; [apply r_computed | intros; apply r_ret]] | | intros _ _].
  { apply nov_debug. np; [apply nov_balance, (rd_room _ _ _ Rd)|].
    eapply nov_bind; [apply r_computed | apply (nov_computed V n e1); assumption | intros; apply nov_ret]. }
  nb Hw; [apply nov_wallet, (rd_room _ _ _ Rd) | apply nov_ret].
Qed.

Lemma nov_update V n N e u :
  Bd c P T G V n N e -> update_in P T u -> feed_ok u -> N + 10004 < 2 ^ 64 -> 0 <= n -> lim V n -> V <= Vt -> nov (w_update_state w c e u).
Proof.
  intros Bd0 Hu Hf HN Hn Hl HV. pose proof (ci_sample _ _ _ _ _ Ci) as (Ct & Cs & _).
  pose proof (pre_check_bd _ _ _ _ _ _ _ _ _ Cs Bd0 Hu) as B1. pose proof Bd0 as [S B C F]. pose proof (sound_mid _ _ S) as M.
  pose proof (ready V n e M B Hn Hl) as Rd. pose proof (cn_step _ _ C) as Hst.
  unfold w_update_state. nb Hms; [apply nov_market_update; [assumption | lia | lia]|].
  unfold market_update_state in Hms. apply bind_done in Hms as (? & _ & Hms). injection Hms as <-.
  destruct Hu as [Ht Hu]. destruct (Hu _ (fd_bid _ _ _ _ F) (fd_ask _ _ _ _ F)) as [U1 U2].
  match goal with |- context [set_ms e ?m] => set (ms := m) end.
  destruct (nov_mid ms U1 U2) as [Hmid _].
  cbv zeta. np; [unfold w_tracker_update; np; [exact Hmid | apply nov_ret]|].
  cbn [set_ms set_trk ex_trig ex_trk ex_ms].
  eapply nov_bind; [apply r_trigger | apply nov_trigger; [apply (fd_last _ _ _ _ F) | apply (fd_interval _ _ _ _ F)] | intros [trig fire] Et; cbv beta iota; injection Et as Et].
  assert (Rest : forall e4, e4 = pre_check c e u -> nov (
    m <~ w_check_maintenance_margin w c (ms_bid (ex_ms e4)) (ms_ask (ex_ms e4)) (ex_pos e4) ;;
    match m with
    | Err err => e5 <~ w_liquidate w c e4 ;; ret (e5, Err (ERisk err))
    | Ok _ => e5 <~ w_check_active_orders w c e4 u ;; ret (e5, Ok (ex_updates e5))
    end)).
  { intros e4 ->. np; [apply nov_mm, (mo_entry _ _ _ _ _ _ _ _ _ (bd_cash _ _ _ _ _ _ _ _ B1))|].
    destruct (check_maintenance_margin _ _ _ _).
    - nb He5; [eapply (nov_check V n (N + 1)); try eassumption; lia | apply nov_ret].
    - nb He5; [eapply (nov_liquidate V n (N + 1)); try eassumption; lia | apply nov_ret]. }
  assert (Epre : pre_check c e u = (let e3 := set_trig (set_trk (set_ms e ms) (tracker_update (ex_trk e) ms)) trig in
      if fire then set_trk e3 (tracker_sample (ex_trk e3) (balances_sum (balances e3))) else e3)).
  { unfold pre_check. fold ms. cbn [set_ms set_trk ex_trig ex_trk ex_ms]. rewrite Et. reflexivity. }
  destruct fire.
  - eapply nov_bind; [eapply r_pure; [apply r_balances|]; eapply r_pure; [apply r_mid|]; eapply r_pure; [apply r_balances_sum|]; apply r_ret| |
      intros e4 E4; injection E4 as <-; apply Rest; rewrite Epre; reflexivity].
    pose proof (rd_room _ _ _ Rd) as R. pose proof (bal_range _ WALLET R). pose proof (bal_range _ POSITION_MARGIN R). pose proof (bal_range _ ORDER_MARGIN R).
    pose proof (bal_pair _ R). pose proof (bal_all _ R). destruct R as (R1 & R2 & R3).
    np; [unfold w_balances; np; [apply nov_balance, (rd_room _ _ _ Rd)|]; np; [apply nov_balance, (rd_room _ _ _ Rd)|]; np; [apply nov_balance, (rd_room _ _ _ Rd)|]; apply nov_ret|].
    np; [exact Hmid|]. np; [|apply nov_ret]. unfold w_balances_sum. cbn [balances ub_wallet ub_pm ub_om set_trig set_trk set_ms ex_acc].
    unfold bal in *. np; [apply nov_add; lia|]. apply nov_add; lia.
  - eapply nov_bind; [apply r_ret | apply nov_ret | intros e4 E4; injection E4 as <-; apply Rest; rewrite Epre; reflexivity].
Qed.

Lemma nov_map_out {S E A B} (f : A -> B) (m : checked (S * result E A)) : nov m -> nov (w_map_out f m).
Proof. intros H. unfold w_map_out. destruct m as [[[x y]|p]|]; cbn; [apply nov_ret | apply nov_fine | exfalso; apply H; reflexivity]. Qed.

Lemma nov_step V n N e o :
  Bd c P T G V n N e -> call_in P T L o -> N + 10010 < 2 ^ 64 -> 0 <= n -> lim (V + ordered o) (n + reserves o) -> V + ordered o <= Vt ->
  nov (w_step w c e o).
Proof.
  intros B Hin HN Hn Hl HV. destruct o as [ru|sd q uid|sd p q uid|b|id sd p q uid|ru]; cbn [w_step ordered reserves call_in] in *; rewrite ?Z.add_0_r in *.
  - nb Hu; [apply nov_build; assumption|]. apply nov_map_out. apply (nov_update V n N); try assumption; try lia.
    + eapply build_in; eassumption.
    + eapply build_ok; eassumption.
  - unfold market_new. destruct (Z.leb_spec q 0); [apply nov_ret|]. apply nov_map_out. rewrite Z.max_r in * by lia.
    apply (nov_submit_market V n N q); try assumption; try (cbn; lia). left; reflexivity.
  - unfold limit_new. destruct (Z.leb_spec p 0); [apply nov_ret|]. destruct (Z.leb_spec q 0); [apply nov_ret|]. apply nov_map_out. rewrite Z.max_r in * by lia.
    apply (nov_submit_limit V n N); try assumption; try (cbn; lia). split; cbn; lia.
  - apply nov_map_out. apply (nov_cancel V n N); try assumption; lia.
  - unfold limit_new. destruct (Z.leb_spec p 0); [apply nov_ret|]. destruct (Z.leb_spec q 0); [apply nov_ret|]. apply nov_map_out. rewrite Z.max_r in * by lia.
    apply (nov_amend V n N); try assumption; try (cbn; lia). split; cbn; lia.
  - nb Hu; [apply nov_build; assumption|]. nb He; [|apply nov_ret]. apply (nov_check V n N); try assumption; lia.
Qed.

Lemma nov_run ops : forall V n N e,
  Bd c P T G V n N e -> (forall o, In o ops -> call_in P T L o) -> N + 10001 * (Z.of_nat (length ops) + 1) < 2 ^ 64 ->
  0 <= n -> lim (V + volume ops) (n + submissions ops) -> V + volume ops <= Vt -> nov (w_run w c e ops).
Proof.
  induction ops as [|o ops IH]; intros V n N e B Hin HN Hn Hl HV; cbn [w_run]; [apply nov_ret|].
  rewrite volume_cons, submissions_cons in *. cbn [length] in HN. rewrite Nat2Z.inj_succ in HN.
  pose proof (volume_nonneg ops) as Hv. pose proof (submissions_nonneg ops) as Hs0. pose proof om_pos as Ho.
  assert (0 <= reserves o) by (destruct o; cbn; lia).
  nbp Hst.
  - apply (nov_step V n N); try assumption; try lia; [apply Hin; left; reflexivity|]. eapply lim_less; [exact Hl | lia | lia].
  - nbp Hr; [|apply nov_ret]. pose proof (ci_sample _ _ _ _ _ Ci) as (_ & Cs & _).
    apply (IH (V + ordered o) (n + reserves o) (N + 10001)); try lia.
    + eapply step_bd; try eassumption; try apply rates; [apply Hin; left; reflexivity|].
      eapply Z.le_trans; [|exact HG]. apply Z.add_le_mono_l. apply Z.mul_le_mono_nonneg_l; lia.
    + intros x Hx; apply Hin; right; assumption.
    + eapply lim_less; [exact Hl | lia | lia].
Qed.

Lemma nov_init : c_start c < L -> nov (w_init w c).
Proof.
  intros Hst. pose proof (vc_start _ Vc) as H0. pose proof L_pos. unfold w_init. na Ht. unfold w_exchange_new.
  nb Hacc.
  { unfold w_accounting_new. np; [apply nov_add; lia|]. np; [apply nov_add; lia|]. cbv zeta. nb Hz; [|apply nov_ret].
    apply nov_equation. split; [intros []; cbn; lia|]. split; [unfold debit_sum, credit_sum; cbn; lia | unfold debit_sum; cbn; lia]. }
  np; [|apply nov_ret]. pose proof (ci_sample _ _ _ _ _ Ci) as (C1 & C2 & C3). unfold chk, fits. change (64 - 1) with 63.
  destruct (Z.leb_spec (- 2 ^ 63) (c_sample_s c * 1000000000)); [|lia].
  destruct (Z.ltb_spec (c_sample_s c * 1000000000) (2 ^ 63)); [|lia]. apply nov_ret.
Qed.

Lemma no_overflow ops :
  volume ops <= Vt -> (forall o, In o ops -> call_in P T L o) -> 10001 * (Z.of_nat (length ops) + 1) < 2 ^ 64 ->
  lim (volume ops) (submissions ops) -> w_play w c ops = Fine (u_play c ops).
Proof.
  intros HV Hin HN Hl. pose proof (volume_nonneg ops) as Hv. pose proof (submissions_nonneg ops) as Hs0.
  pose proof s_pos as Hs. pose proof om_pos as Ho. pose proof G_pos as HG0.
  assert (X : nov (w_play w c ops)).
  { unfold w_play. nb He0.
    - apply nov_init. apply scaled_lt. unfold lim in Hl. assert (0 <= om * volume ops) by mulpos. assert (0 <= submissions ops * G) by mulpos. lia.
    - apply (nov_run ops 0 0 0); try assumption; try lia.
      apply init_bd; try assumption; [apply (ci_price _ _ _ _ _ Ci)|].
      assert (0 <= om * Vt) by (pose proof (ci_volume _ _ _ _ _ Ci); mulpos). lia. }
  assert (R : refines (w_play w c ops) (u_play c ops)) by (unfold w_play, u_play; apply r_bind; [apply r_init | intros; apply r_run]).
  destruct R as [R|R]; [contradiction | exact R].
Qed.
End Width.
