(** Wrapping totals do not change the balances. *)
From Verif Require Import Base Types Accounting Exchange Width Fixed FixedProof Wrapped WrapSim WrapExact ProofBase Spec SpecFixed SpecWrapped.

(** ** Wrapping *)
Section Wrap.
Variable w : Z.
Hypothesis Hw : 0 < w.

Lemma pow_half : 2 ^ w = 2 * 2 ^ (w - 1) /\ 0 < 2 ^ (w - 1).
Proof.
  split; [|apply Z.pow_pos_nonneg; lia]. replace w with (1 + (w - 1)) at 1 by lia. rewrite Z.pow_add_r by lia. lia.
Qed.

Lemma wrap_spec z : is_wrapped w z (wrap w z).
Proof.
  destruct pow_half as [E P]. unfold wrap. split.
  - exists (- ((z + 2 ^ (w - 1)) / 2 ^ w)).
    pose proof (Z.div_mod (z + 2 ^ (w - 1)) (2 ^ w) ltac:(lia)). lia.
  - pose proof (Z.mod_pos_bound (z + 2 ^ (w - 1)) (2 ^ w) ltac:(lia)). lia.
Qed.

Lemma wrapped_unique z a b : is_wrapped w z a -> is_wrapped w z b -> a = b.
Proof.
  intros [[k ->] Hk] [[l ->] Hl]. destruct pow_half as [E P]. assert (k = l) by nia. subst. reflexivity.
Qed.

Lemma fits_range z : fits w z = true <-> - 2 ^ (w - 1) <= z <= 2 ^ (w - 1) - 1.
Proof. unfold fits. rewrite andb_true_iff, Z.leb_le, Z.ltb_lt. lia. Qed.

Lemma wrap_fits z : fits w (wrap w z) = true.
Proof. apply fits_range, wrap_spec. Qed.

Lemma wrap_id z : fits w z = true -> wrap w z = z.
Proof.
  intros H. apply (wrapped_unique z); [apply wrap_spec|]. split; [exists 0; lia | apply fits_range, H].
Qed.

Lemma wrap_eq a b : (exists k, b = a + k * 2 ^ w) -> wrap w a = wrap w b.
Proof.
  intros [k ->]. apply (wrapped_unique a); [apply wrap_spec|]. destruct (wrap_spec (a + k * 2 ^ w)) as [[l E] B].
  split; [exists (k + l); lia | exact B].
Qed.

Lemma wrap_add a b : wrap w (wrap w a + b) = wrap w (a + b).
Proof. apply wrap_eq. destruct (wrap_spec a) as [[k E] _]. exists (- k). lia. Qed.

Lemma wrap_sub2 a b : wrap w (wrap w a - wrap w b) = wrap w (a - b).
Proof. apply wrap_eq. destruct (wrap_spec a) as [[k E] _]. destruct (wrap_spec b) as [[l F] _]. exists (l - k). lia. Qed.

(** ** Ledgers *)
Lemma get_set a i j t : get_account (set_account a i t) j = if account_id_eq_dec i j then t else get_account a j.
Proof. destruct a, i, j; reflexivity. Qed.

(** Totals of the unbounded ledger, wrapped around, and its balances fit. *)
Definition wraps (a b : accounts) : Prop := forall id,
  ta_debits (get_account a id) = wrap w (ta_debits (get_account b id)) /\
  ta_credits (get_account a id) = wrap w (ta_credits (get_account b id)) /\
  fits w (margin_balance_of b id) = true.

Lemma wraps_balance a b id : wraps a b -> v_balance w a id = margin_balance_of b id.
Proof.
  intros H. destruct (H id) as (E1 & E2 & F). unfold v_balance. rewrite E1, E2, wrap_sub2. apply wrap_id, F.
Qed.

Lemma chk_bind {A} z (k : Z -> checked A) : cbind (chk w z) k = if fits w z then k z else Overflow.
Proof. unfold chk. destruct (fits w z); reflexivity. Qed.

Lemma v_transfer_eq acc d c amt :
  d <> c ->
  v_transfer w acc d c amt =
  if 0 <? amt then
    if fits w (v_balance w acc d + amt) then
      if fits w (v_balance w acc c - amt) then
        ret (set_account (set_account acc c {| ta_debits := ta_debits (get_account acc c);
                                               ta_credits := wrap w (ta_credits (get_account acc c) + amt) |})
               d {| ta_debits := wrap w (ta_debits (get_account acc d) + amt); ta_credits := ta_credits (get_account acc d) |})
      else Overflow
    else Overflow
  else Fine (Panic PTxAmount).
Proof.
  intros Hd. unfold v_transfer, transaction_new, assert. destruct (0 <? amt); [|reflexivity]. cbn [bind].
  destruct (account_id_eq_dec d c); [contradiction|]. cbn [bind cbind tx_debit tx_credit tx_amount]. cbv zeta.
  unfold cadd, csub. rewrite chk_bind. destruct (fits w (v_balance w acc d + amt)); [|reflexivity].
  rewrite chk_bind. reflexivity.
Qed.

Lemma transfer_eq dbg acc d c amt :
  d <> c -> dbg = false ->
  transfer dbg acc d c amt =
  if 0 <? amt then
    Done (set_account (set_account acc c {| ta_debits := ta_debits (get_account acc c); ta_credits := ta_credits (get_account acc c) + amt |})
            d {| ta_debits := ta_debits (get_account acc d) + amt; ta_credits := ta_credits (get_account acc d) |})
  else Panic PTxAmount.
Proof.
  intros Hd ->. unfold transfer, transaction_new, assert. destruct (0 <? amt); [|reflexivity]. cbn [bind].
  destruct (account_id_eq_dec d c); [contradiction|]. reflexivity.
Qed.

Lemma w_transfer_eq acc d c amt :
  d <> c ->
  w_transfer w false acc d c amt =
  if 0 <? amt then
    if fits w (ta_debits (get_account acc d) + amt) then
      if fits w (ta_credits (get_account acc c) + amt) then
        ret (set_account (set_account acc c {| ta_debits := ta_debits (get_account acc c); ta_credits := ta_credits (get_account acc c) + amt |})
               d {| ta_debits := ta_debits (get_account acc d) + amt; ta_credits := ta_credits (get_account acc d) |})
      else Overflow
    else Overflow
  else Fine (Panic PTxAmount).
Proof.
  intros Hd. unfold w_transfer, transaction_new, assert. destruct (0 <? amt); [|reflexivity]. cbn [bind].
  destruct (account_id_eq_dec d c); [contradiction|]. cbn [bind cbind tx_debit tx_credit tx_amount]. cbv zeta.
  unfold cadd, csub. rewrite chk_bind. destruct (fits w (ta_debits (get_account acc d) + amt)); [|reflexivity].
  rewrite chk_bind. destruct (fits w _); reflexivity.
Qed.

Lemma vx_new dbg z : dbg = false -> osim wraps (l_new (wrapping_ledger w) z) (l_new (exact_ledger dbg) z).
Proof.
  intros ->. unfold wrapping_ledger, exact_ledger; cbn [l_new]. unfold v_accounting_new, accounting_new, cadd, csub; cbv zeta.
  cbn [debug_assert_accounting_equation debug_assert bind]. rewrite chk_bind. destruct (fits w (0 + z)) eqn:F; [|exact I].
  rewrite chk_bind, F, chk_bind. destruct (fits w (0 - z)) eqn:G; [|exact I].
  eexists. split; [reflexivity|]. unfold post_debit, post_credit; cbn [ta_debits ta_credits].
  assert (F0 : fits w 0 = true) by (apply fits_range; destruct pow_half; lia).
  intros id; destruct id; cbn [get_account ac_wallet ac_om ac_pm ac_fee ac_broker ac_treasury margin_balance_of net_balance ta_debits ta_credits];
  rewrite ?(wrap_id 0 F0), ?(wrap_id _ F); (split; [reflexivity|]; split; [reflexivity|]); unfold margin_balance_of, net_balance; cbn;
  first [exact F0 | replace (z - 0) with (0 + z) by lia; exact F | replace (- z) with (0 - z) by lia; exact G | idtac].
Qed.

Lemma vx_balance dbg a b id : wraps a b -> osim eq (l_balance (wrapping_ledger w) a id) (l_balance (exact_ledger dbg) b id).
Proof. intros H. cbn [wrapping_ledger exact_ledger l_balance]. apply osim_ret, wraps_balance, H. Qed.

Lemma vx_transfer dbg a b d c amt :
  dbg = false -> d <> c -> wraps a b ->
  osim wraps (l_transfer (wrapping_ledger w) a d c amt) (l_transfer (exact_ledger dbg) b d c amt).
Proof.
  intros Hdbg Hd H. cbn [wrapping_ledger exact_ledger l_transfer]. rewrite v_transfer_eq, transfer_eq by assumption.
  destruct (0 <? amt); [|reflexivity].
  destruct (fits w (v_balance w a d + amt)) eqn:F1; [|exact I]. destruct (fits w (v_balance w a c - amt)) eqn:F2; [|exact I].
  rewrite (wraps_balance a b) in F1, F2 by assumption.
  eexists. split; [reflexivity|]. intros id. destruct (H d) as (D1 & D2 & D3), (H c) as (C1 & C2 & C3), (H id) as (I1 & I2 & I3).
  unfold margin_balance_of, net_balance in *. rewrite !get_set.
  destruct (account_id_eq_dec d id) as [E|E]; cbn [ta_debits ta_credits].
  - rewrite D1, D2, wrap_add. split; [reflexivity|]. split; [reflexivity|].
    replace (ta_debits (get_account b d) + amt - ta_credits (get_account b d))
      with (ta_debits (get_account b d) - ta_credits (get_account b d) + amt) by lia. exact F1.
  - destruct (account_id_eq_dec c id) as [E'|E']; cbn [ta_debits ta_credits]; [|auto].
    rewrite C1, C2, wrap_add. split; [reflexivity|]. split; [reflexivity|].
    replace (ta_debits (get_account b c) - (ta_credits (get_account b c) + amt))
      with (ta_debits (get_account b c) - ta_credits (get_account b c) - amt) by lia. exact F2.
Qed.

(** The checked ledger: totals that fit, the same balances. *)
Definition covers (a b : accounts) : Prop := forall id,
  0 <= ta_debits (get_account a id) <= 2 ^ (w - 1) - 1 /\ 0 <= ta_credits (get_account a id) <= 2 ^ (w - 1) - 1 /\
  v_balance w b id = margin_balance_of a id.

Lemma covers_fits a b id : covers a b -> fits w (margin_balance_of a id) = true.
Proof. intros H. destruct (H id) as (H1 & H2 & _). apply fits_range. unfold margin_balance_of, net_balance. lia. Qed.

Lemma wv_new z : 0 < z -> osim covers (l_new (checked_ledger w false) z) (l_new (wrapping_ledger w) z).
Proof.
  intros Hz. unfold wrapping_ledger, checked_ledger; cbn [l_new]. unfold v_accounting_new, w_accounting_new, cadd, csub; cbv zeta.
  destruct (fits w (0 + z)) eqn:F; [|rewrite chk_bind, F; exact I].
  assert (F0 : fits w 0 = true) by (apply fits_range; destruct pow_half; lia). pose proof F as Fz. apply fits_range in Fz.
  assert (G : fits w (0 - z) = true) by (apply fits_range; lia).
  repeat (rewrite chk_bind; rewrite ?F, ?G). cbn [w_accounting_equation cdebug_assert_m cbind ret].
  eexists. split; [reflexivity|]. destruct pow_half as [_ P].
  intros id; destruct id; unfold v_balance, margin_balance_of, net_balance; cbn [get_account ac_wallet ac_om ac_pm ac_fee ac_broker ac_treasury ta_debits ta_credits];
  (split; [lia|]; split; [lia|]; apply wrap_id; apply fits_range; lia).
Qed.

Lemma wv_balance a b id : covers a b -> osim eq (l_balance (checked_ledger w false) a id) (l_balance (wrapping_ledger w) b id).
Proof.
  intros H. cbn [wrapping_ledger checked_ledger l_balance]. unfold w_margin_balance_of, csub. cbv zeta.
  fold (net_balance (get_account a id)). fold (margin_balance_of a id).
  unfold chk. rewrite (covers_fits _ _ _ H). apply osim_ret. symmetry. apply (H id).
Qed.

Lemma wv_transfer a b d c amt :
  d <> c -> covers a b -> osim covers (l_transfer (checked_ledger w false) a d c amt) (l_transfer (wrapping_ledger w) b d c amt).
Proof.
  intros Hd H. cbn [wrapping_ledger checked_ledger l_transfer]. rewrite v_transfer_eq, w_transfer_eq by assumption.
  destruct (Z.ltb_spec 0 amt) as [Ha|]; [|reflexivity].
  destruct (fits w (ta_debits (get_account a d) + amt)) eqn:F1; [|exact I].
  destruct (fits w (ta_credits (get_account a c) + amt)) eqn:F2; [|exact I].
  apply fits_range in F1, F2. destruct (H d) as (D1 & D2 & D3), (H c) as (C1 & C2 & C3).
  unfold margin_balance_of, net_balance in *.
  assert (G1 : fits w (v_balance w b d + amt) = true) by (apply fits_range; lia).
  assert (G2 : fits w (v_balance w b c - amt) = true) by (apply fits_range; lia).
  rewrite G1, G2. eexists. split; [reflexivity|]. intros id. destruct (H id) as (I1 & I2 & I3).
  unfold margin_balance_of, net_balance, v_balance in *; cbv zeta in *. rewrite !get_set.
  destruct (account_id_eq_dec d id) as [E|E]; cbn [ta_debits ta_credits].
  - split; [lia|]. split; [lia|]. match goal with |- _ = ?r => rewrite <- (wrap_id r) by (apply fits_range; lia) end.
    apply wrap_eq. set (x := ta_debits (get_account b d)) in *. set (y := ta_credits (get_account b d)) in *.
    destruct (wrap_spec (x - y)) as [[k K] _]. destruct (wrap_spec (x + amt)) as [[l K'] _]. rewrite D3 in K. rewrite K'.
    exists (k - l). lia.
  - destruct (account_id_eq_dec c id) as [E'|E']; cbn [ta_debits ta_credits].
    + split; [lia|]. split; [lia|]. match goal with |- _ = ?r => rewrite <- (wrap_id r) by (apply fits_range; lia) end.
      apply wrap_eq. set (x := ta_debits (get_account b c)) in *. set (y := ta_credits (get_account b c)) in *.
      destruct (wrap_spec (x - y)) as [[k K] _]. destruct (wrap_spec (y + amt)) as [[l K'] _]. rewrite C3 in K. rewrite K'.
      exists (k + l). lia.
    + auto.
Qed.

(** ** Calls *)
Lemma osim_exact {A B} (S : A -> B -> Prop) (m : checked A) (n : checked B) o :
  osim S m n -> refines n o -> m = Overflow \/ (exists a, m = Fine a /\ alike S a o).
Proof.
  intros H [->| ->]; destruct m as [[a|p]|]; cbn in H; auto.
  - destruct H as (b & E & _). discriminate.
  - discriminate.
  - destruct H as (b & E & Hb). injection E as ->. right. exists (Done a). split; [reflexivity|]. exact Hb.
  - injection H as ->. right. exists (Panic p). split; reflexivity.
Qed.

Lemma exact_play c ops :
  refines (e <~ g_init (exact_ledger (c_dbg c)) c ;; g_run (exact_ledger (c_dbg c)) w c e ops) (u_play c ops).
Proof. unfold u_play. apply r_bind; [apply x_init | intros e; apply x_run]. Qed.

Lemma v_play_sim c ops :
  c_dbg c = false ->
  v_play w c ops = Overflow \/ exists x, v_play w c ops = Fine x /\ alike (RX wraps) x (u_play c ops).
Proof.
  intros Hd. eapply osim_exact; [|apply exact_play]. unfold v_play, v_init, v_run. apply s_play.
  - intros a a' id H. apply vx_balance, H.
  - intros a a' d c' amt H1 H2. apply vx_transfer; assumption.
  - apply vx_new, Hd.
Qed.

Lemma wraps_same e e' : RE wraps e e' -> same_but_wrapped w e e'.
Proof.
  intros (a & -> & H). split; [destruct e; reflexivity|]. intros id. destruct (H id) as (E1 & E2 & _).
  cbn [ex_acc set_acc]. rewrite E1, E2. split; apply wrap_spec.
Qed.

Lemma release_agrees c ops :
  c_dbg c = false ->
  v_play w c ops = Overflow \/
  exists x, v_play w c ops = Fine x /\
    alike (fun a b => same_but_wrapped w (fst a) (fst b) /\ snd a = snd b) x (u_play c ops).
Proof.
  intros Hd. destruct (v_play_sim c ops Hd) as [H|(x & H & S)]; [left; exact H|]. right. exists x. split; [exact H|].
  destruct x as [a|p], (u_play c ops) as [b|p']; cbn in *; auto. destruct S as [S1 S2]. split; [apply wraps_same, S1 | exact S2].
Qed.

Lemma release_balances c ops e outs :
  c_dbg c = false -> v_play w c ops = Fine (Done (e, outs)) ->
  exists e', u_play c ops = Done (e', outs) /\ RE wraps e e' /\ forall id, v_balance w (ex_acc e) id = margin_balance_of (ex_acc e') id.
Proof.
  intros Hd H. destruct (v_play_sim c ops Hd) as [E|(x & E & S)]; rewrite H in E; [discriminate|]. injection E as <-.
  destruct (u_play c ops) as [[e' outs']|]; cbn in S; [|contradiction]. destruct S as [S1 S2]; cbn in S1, S2. subst outs'.
  exists e'. split; [reflexivity|]. split; [exact S1|]. intros id. destruct S1 as (a & -> & S1). cbn [ex_acc set_acc]. apply wraps_balance, S1.
Qed.

(** The functions repeated with a ledger parameter are those of [Fixed]. *)
Lemma same_loop c u todo : forall e ids,
  g_fill_loop (checked_ledger w (c_dbg c)) w c u e ids todo = w_fill_loop w c u e ids todo.
Proof.
  induction todo as [|o todo IH]; intros e ids; [reflexivity|]. cbn [g_fill_loop w_fill_loop].
  change (g_fill_one (checked_ledger w (c_dbg c)) w c u e ids o) with (w_fill_one w c u e ids o).
  destruct (w_fill_one w c u e ids o) as [[[[e1 i1] o1]|]|]; cbn [cbind]; [|reflexivity..]. rewrite IH. reflexivity.
Qed.

Lemma same_check c e u : g_check_active_orders (checked_ledger w (c_dbg c)) w c e u = w_check_active_orders w c e u.
Proof. unfold g_check_active_orders, w_check_active_orders; cbv zeta. rewrite same_loop. reflexivity. Qed.

Lemma bind_ext {A B} (m : checked A) (k l : A -> checked B) : (forall a, k a = l a) -> cbind m k = cbind m l.
Proof. intros H. destruct m as [[a|]|]; cbn; auto. Qed.

Lemma same_update c e u : g_update_state (checked_ledger w (c_dbg c)) w c e u = w_update_state w c e u.
Proof.
  unfold g_update_state, w_update_state; cbv zeta. apply bind_ext; intros ms. apply bind_ext; intros t. apply bind_ext; intros [trig fire].
  apply bind_ext; intros e4. apply bind_ext; intros [m|m]; [rewrite same_check|]; reflexivity.
Qed.

Lemma same_step c e o : g_step (checked_ledger w (c_dbg c)) w c e o = w_step w c e o.
Proof.
  destruct o; try reflexivity; cbn [g_step w_step]; apply bind_ext; intros x; [rewrite same_update | rewrite same_check]; reflexivity.
Qed.

Lemma same_run c ops : forall e, g_run (checked_ledger w (c_dbg c)) w c e ops = w_run w c e ops.
Proof.
  induction ops as [|o ops IH]; intros e; [reflexivity|]. cbn [g_run w_run]. rewrite same_step.
  apply bind_ext; intros [e1 r]. rewrite IH. reflexivity.
Qed.

Lemma release_outlives c ops x :
  c_dbg c = false -> 0 < c_start c -> w_play w c ops = Fine x ->
  exists y, v_play w c ops = Fine y /\ alike (fun a b => snd a = snd b) y x.
Proof.
  intros Hd Hs H.
  assert (S : osim (RX covers) (e <~ g_init (checked_ledger w (c_dbg c)) c ;; g_run (checked_ledger w (c_dbg c)) w c e ops) (v_play w c ops)).
  { unfold v_play, v_init, v_run. rewrite Hd. apply s_play.
    - intros a a' id Ha. apply wv_balance, Ha.
    - intros a a' d c' amt H1 H2. apply wv_transfer; assumption.
    - apply wv_new, Hs. }
  unfold w_play in H. change (w_init w c) with (g_init (checked_ledger w (c_dbg c)) c) in H.
  destruct (g_init (checked_ledger w (c_dbg c)) c) as [[e0|]|]; cbn [cbind] in *; [rewrite same_run, H in S| |discriminate].
  - destruct x as [a|p]; cbn in S.
    + destruct S as (b & -> & [_ E]). exists (Done b). split; [reflexivity | symmetry; exact E].
    + rewrite S. exists (Panic p). split; reflexivity.
  - injection H as <-. cbn in S. rewrite S. eexists; split; reflexivity.
Qed.
End Wrap.
