(** The lists of SpecDerived.v are exact; profits never overflow on their own. *)
From Verif Require Import Base Types Filters Accounting Currency Position OrderBook OrderMargin
  Risk MarketUpdate Tracker Stats Helpers Data Exchange Width Fixed FixedProof Spec SpecFixed SpecFits SpecNeeds NeedsProof Derived SpecDerived.

Lemma t_turnover w t : tr w (w_turnover w t) (n_turnover t) (Done (turnover t)).
Proof. apply t_cadd. Qed.
Lemma t_rpnl w t : tr w (w_rpnl w t) (n_rpnl t) (Done (rpnl t)).
Proof. apply t_csub. Qed.
Lemma t_ratio w c t : tr w (w_buy_volume_ratio w c t) (n_volume_ratio (c_scale c) t) (buy_volume_ratio c t).
Proof.
  unfold w_buy_volume_ratio, n_volume_ratio, buy_volume_ratio. apply t_assert, t_assert. cbv zeta.
  eapply t_need; [apply t_cadd|]. cbv beta. destruct (_ =? 0); [apply t_ret|].
  apply t_bind_ret; [apply t_cdiv | intros r; apply t_ret].
Qed.
Lemma t_bought w k s t : tr w (w_convert_paired w k s (tk_start t) (tk_price_first t)) (n_bought k s t)
  (convert_paired k s (tk_start t) (tk_price_first t)).
Proof. destruct k; [apply t_cdiv | apply t_cmul]. Qed.
Lemma t_hold w c t : tr w (w_buy_and_hold_return w c t) (n_hold (c_kind c) (c_scale c) t) (buy_and_hold_return c t).
Proof. apply t_bind; [apply t_bought | intros q; apply t_pnl]. Qed.
Lemma t_short_hold w c t : tr w (w_sell_and_hold_return w c t) (n_short_hold c t) (sell_and_hold_return c t).
Proof. apply t_bind; [apply t_hold | intros q; apply t_cneg]. Qed.
Lemma cast_days d : 0 <= d < 2 ^ 63 -> as_u32 (Z.quot d 86400000000000) = Z.quot d 86400000000000.
Proof.
  intros H. unfold as_u32. apply Z.mod_small. rewrite Z.quot_div_nonneg by lia. split; [apply Z.div_pos; lia|].
  apply Z.div_lt_upper_bound; lia.
Qed.
Lemma t_days w t : tr w (w_num_trading_days t) (n_days t) (num_trading_days t).
Proof.
  unfold w_num_trading_days, n_days, num_trading_days, tr, assert, guarding. destruct (Z.leb_spec (tk_ts_first t) (tk_ts_last t)); [|reflexivity].
  cbn [cbind bind forallb nfits]. unfold chk. destruct (fits 64 _) eqn:F; [|reflexivity]. cbn [cbind ret andb].
  unfold fits in F. apply andb_prop in F as [_ F]. apply Z.ltb_lt in F. rewrite cast_days by lia. reflexivity.
Qed.
Lemma t_display w c t : tr w (w_display_numbers w c t) (n_display c t) (display_numbers c t).
Proof.
  unfold w_display_numbers, n_display, display_numbers.
  eapply t_pure; [apply t_rpnl|]. cbv beta. eapply t_pure; [apply t_turnover|]. cbv beta.
  apply t_bind; [apply t_hold | intros bh]. apply t_bind_ret; [apply t_days | intros d; apply t_ret].
Qed.
Lemma t_load_rows w rows : tr w (w_load_rows rows) (n_load rows) (load_rows rows).
Proof.
  induction rows as [|r rows IH]; cbn [w_load_rows n_load load_rows]; [apply t_ret|].
  unfold w_load_row, load_row, tr, assert, guarding in *. destruct (negb _); [|reflexivity].
  cbn [cbind bind forallb nfits]. unfold chk. destruct (fits 64 _); [|reflexivity]. cbn [cbind ret andb]. rewrite IH.
  destruct (forallb _ _); [|reflexivity]. destruct (load_rows rows); reflexivity.
Qed.
Lemma t_size w t : tr w (w_taker_size w t) (n_size t) (Done (taker_size t)).
Proof. unfold w_taker_size, n_size, taker_size. destruct (tr_side t); [apply t_ret | apply t_cneg]. Qed.
Lemma t_paid w k s v q : tr w (w_price_paid_for_qty w k s v q) (n_paid k s v q) (price_paid_for_qty k s v q).
Proof. destruct k; cbn; destruct (_ =? 0); first [apply t_ret | apply t_cdiv]. Qed.
Lemma t_quantize w v q : tr w (w_quantize_round_to_zero w v q) (n_quantize v q) (quantize_round_to_zero v q).
Proof. apply t_bind; [apply t_crem | intros r; apply t_csub]. Qed.

Lemma statistics_exact w c t :
  overflows_exactly w (w_turnover w t) (n_turnover t) (Done (turnover t)) /\
  overflows_exactly w (w_rpnl w t) (n_rpnl t) (Done (rpnl t)) /\
  overflows_exactly w (w_buy_volume_ratio w c t) (n_volume_ratio (c_scale c) t) (buy_volume_ratio c t) /\
  overflows_exactly w (w_buy_and_hold_return w c t) (n_hold (c_kind c) (c_scale c) t) (buy_and_hold_return c t) /\
  overflows_exactly w (w_sell_and_hold_return w c t) (n_short_hold c t) (sell_and_hold_return c t) /\
  overflows_exactly w (w_num_trading_days t) (n_days t) (num_trading_days t) /\
  overflows_exactly w (w_display_numbers w c t) (n_display c t) (display_numbers c t).
Proof.
  split; [apply exactly, t_turnover|]. split; [apply exactly, t_rpnl|]. split; [apply exactly, t_ratio|]. split; [apply exactly, t_hold|].
  split; [apply exactly, t_short_hold|]. split; [apply exactly, t_days | apply exactly, t_display].
Qed.
Lemma helpers_exact w k s v q rows t :
  overflows_exactly w (w_load_rows rows) (n_load rows) (load_rows rows) /\
  overflows_exactly w (w_taker_size w t) (n_size t) (Done (taker_size t)) /\
  overflows_exactly w (w_price_paid_for_qty w k s v q) (n_paid k s v q) (price_paid_for_qty k s v q) /\
  overflows_exactly w (w_quantize_round_to_zero w v q) (n_quantize v q) (quantize_round_to_zero v q) /\
  overflows_exactly w (w_currency_abs w v) [Amt (Z.abs v)] (Done (currency_abs v)).
Proof.
  split; [apply exactly, t_load_rows|]. split; [apply exactly, t_size|]. split; [apply exactly, t_paid|].
  split; [apply exactly, t_quantize | apply exactly, t_cabs].
Qed.

Lemma range_fits w z : in_range w z <-> fits w z = true.
Proof. unfold in_range, fits. rewrite Bool.andb_true_iff, Z.leb_le, Z.ltb_lt. lia. Qed.
Lemma load_fits rows : Forall (fun r => Z.abs (cr_ms r) <= 9223372036854) rows -> w_load_rows rows = Fine (load_rows rows).
Proof.
  intros F. rewrite (t_load_rows 64 rows). replace (forallb (nfits 64) (n_load rows)) with true; [reflexivity|]. symmetry.
  induction F as [|r rows H F IH]; [reflexivity|]. cbn [n_load]. unfold guarding. destruct (negb _); [|reflexivity].
  cbn [forallb nfits]. rewrite IH, Bool.andb_true_r. apply range_fits. unfold in_range. change (2 ^ (64 - 1)) with 9223372036854775808. lia.
Qed.
Lemma ratio_fits w c t : 0 < w -> 0 < c_scale c -> in_range w (c_scale c) -> 0 <= tk_buy_volume t -> 0 <= tk_sell_volume t ->
  (w_buy_volume_ratio w c t = Overflow <-> 2 ^ (w - 1) <= turnover t).
Proof.
  intros Hw Hs Fs Hb Hv. unfold turnover, in_range in *. assert (P : 0 < 2 ^ (w - 1)) by (apply Z.pow_pos_nonneg; lia).
  rewrite (t_ratio w c t). unfold n_volume_ratio, guarding. destruct (Z.leb_spec 0 (tk_buy_volume t)); [|lia]. destruct (Z.leb_spec 0 (tk_sell_volume t)); [|lia].
  cbv zeta. set (b := tk_buy_volume t) in *. set (v := tk_sell_volume t) in *. cbn [forallb nfits].
  assert (D : forallb (nfits w) (if b + v =? 0 then [] else n_div (c_scale c) b (b + v)) = true).
  { destruct (Z.eqb_spec (b + v) 0) as [E|E]; [reflexivity|]. unfold n_div, ddiv. destruct (Z.eqb_spec (b + v) 0); [contradiction|]. cbn [given forallb nfits].
    rewrite Bool.andb_true_r. apply range_fits. unfold in_range. rewrite Z.quot_div_nonneg by nia.
    pose proof (Z.div_pos (b * c_scale c) (b + v) ltac:(nia) ltac:(lia)).
    assert (b * c_scale c / (b + v) <= c_scale c) by (apply Z.div_le_upper_bound; nia). lia. }
  rewrite D, Bool.andb_true_r. destruct (fits w (b + v)) eqn:F.
  - apply range_fits in F. unfold in_range in F. split; [discriminate | lia].
  - split; [intros _ | reflexivity]. destruct (Z.lt_ge_cases (b + v) (2 ^ (w - 1))) as [L|G]; [|exact G]. exfalso.
    assert (fits w (b + v) = true) by (apply range_fits; unfold in_range; lia). congruence.
Qed.
