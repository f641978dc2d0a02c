(** Ledger totals only grow: placing and cancelling orders is enough to overflow every integer type. *)
From Verif Require Import Base Types Accounting Position OrderBook OrderMargin MarketUpdate Exchange
  Spec SpecConfig SpecMargin SpecMarket SpecPanic SpecMachine SpecEntry SpecFixed Width Fixed ProofBase OpLemmas StepLemmas MarginProof OrderProof MachineProof HealthProof PanicCor EntryFacts
  Inv FixedProof FixedFit.

(** Only the id distinguishes the next attempt from this one. *)
Lemma need_id c l sd p q uid i t i' t' n :
  need c (l ++ [{| lo_uid := uid; lo_side := sd; lo_price := p; lo_rem := q; lo_id := i; lo_ts := t; lo_filled := Unfilled |}]) n
  = need c (l ++ [{| lo_uid := uid; lo_side := sd; lo_price := p; lo_rem := q; lo_id := i'; lo_ts := t'; lo_filled := Unfilled |}]) n.
Proof.
  unfold need, ranking. rewrite !pairs_app. reflexivity.
Qed.

Lemma m_limit_again c m sd p q uid m1 o :
  m_limit c m sd p q uid = (m1, Ok (OutLimit o)) ->
  exists m2 o2, m_limit c (with_id m) sd p q uid = (m2, Ok (OutLimit o2)) /\ m_reserved m2 = m_reserved m1.
Proof.
  unfold m_limit. destruct (p <=? 0); [discriminate|]. destruct (q <=? 0); [discriminate|].
  unfold m_submit; cbv zeta. cbn [with_id m_bid m_ask m_orders m_next m_time m_book m_held m_reserved m_pos].
  destruct (quantity_fault _ _); [discriminate|]. destruct (price_fault _ _ _ _); [discriminate|].
  change (m_pos (with_id m)) with (m_pos m). change (m_free (with_id m)) with (m_free m).
  rewrite (need_id c (m_orders m) sd p q uid (m_next m) (m_time m) (m_next m + 1) (m_time m)).
  destruct (_ <? _); [discriminate|]. destruct (match sd with Buy => _ | Sell => _ end); [discriminate|].
  destruct (_ <=? _); [discriminate|]. intros E. injection E as <- <-.
  eexists _, _. split; reflexivity.
Qed.

Lemma churn_cycle c e sd p q uid e1 o :
  valid_config c -> reachable c e -> in_sync c e -> step c e (OpLimit sd p q uid) = Done (e1, Ok (OutLimit o)) ->
  exists e2 e3 o3, step c e1 (OpCancel (ByOrderId (ex_next_id e))) = Done (e2, Ok (OutLimit o)) /\
    reachable c e2 /\ in_sync c e2 /\ ex_next_id e2 = ex_next_id e + 1 /\
    om_debits e2 = om_debits e + (order_margin_of e1 - order_margin_of e) /\
    step c e2 (OpLimit sd p q uid) = Done (e3, Ok (OutLimit o3)) /\
    order_margin_of e3 - order_margin_of e2 = order_margin_of e1 - order_margin_of e.
Proof.
  intros V R Hs H.
  destruct (limit_accepted _ _ _ _ _ _ _ _ (vc_max _ V) R H) as (Ho & Hp & Hq & _ & Hact & Hn & Hres).
  destruct (round_trip _ _ _ _ _ _ _ _ V R Hs H) as (e2 & H2 & Eact & E2).
  assert (Eid : lo_id o = ex_next_id e) by (rewrite Ho; reflexivity). rewrite Eid in H2.
  pose proof (reach_step _ _ _ _ _ R H) as R1. pose proof (reach_step _ _ _ _ _ R1 H2) as R2.
  pose proof (entry_sync _ _ (OpLimit sd p q uid) _ _ V R Logic.I Hs H) as Hs1.
  pose proof (entry_sync _ _ (OpCancel (ByOrderId (ex_next_id e))) _ _ V R1 Logic.I Hs1 H2) as Hs2.
  pose proof (machine_step _ _ _ _ _ V R H) as M. cbn [m_call] in M.
  (* the cancellation does not touch the debits *)
  assert (Hc : om_debits e2 = om_debits e1 /\ ex_next_id e2 = ex_next_id e1).
  { pose proof H2 as Hc. cbn [step] in Hc. apply map_out_done in Hc as (r & Hc & Hr). destruct r as [x|]; [|discriminate].
    apply cancel_spec in Hc as [_ Hc]. split; [|apply (ce_next _ _ _ _ _ Hc)].
    destruct (ce_acc _ _ _ _ _ Hc) as (nm & _ & _ & Ea). unfold om_debits. rewrite Ea.
    destruct (_ <? _); [|reflexivity]. destruct (ex_acc e1); reflexivity. }
  destruct Hc as [Hd Hn2].
  assert (Hd1 : om_debits e1 = om_debits e + (order_margin_of e1 - order_margin_of e)).
  { pose proof H as Hl. cbn [step] in Hl. destruct (limit_new sd p q uid) as [l|] eqn:El; [|discriminate].
    apply map_out_done in Hl as (r & Hl & Hr). destruct r as [x|]; [|discriminate].
    apply submit_limit_spec in Hl. cbv zeta in Hl. destruct Hl as [(err & E & _)|(_ & _ & _ & _ & a & Ha & E)]; [discriminate|].
    destruct a as [[]|]; [|discriminate]. apply append_spec in Ha.
    destruct (ae_acc _ _ _ _ Ha) as (nm & _ & [[_ Ea]|[_ [Ea _]]]).
    - unfold om_debits, order_margin_of, balances; cbn [ub_om]. rewrite Ea. cbn [ex_acc trk_next set_next_id set_trk]. lia.
    - unfold om_debits, order_margin_of, balances; cbn [ub_om]. rewrite Ea. cbn [ex_acc trk_next set_next_id set_trk].
      set (amt := Z.abs _). clearbody amt. destruct (ex_acc e) as [aw ao ap af ab at_]. unfold margin_balance_of, net_balance. cbn. lia. }
  assert (Em : machine_of e2 = with_id (machine_of e)).
  { destruct E2 as (B1 & B2 & B3 & B4 & B5 & B6). unfold machine_of, with_id; cbn [m_book m_held m_reserved m_orders m_bid m_ask m_time m_next].
    f_equal; [|lia|lia|assumption|congruence|congruence|congruence|congruence].
    unfold statement_of. rewrite B5, B4. unfold wealth_of. f_equal. lia. }
  destruct (m_limit_again _ _ _ _ _ _ _ _ M) as (m2 & o2 & M2 & Er).
  destruct (limit_total c e2 sd p q uid V R2 Hs2) as (e3 & r3 & H3).
  pose proof (machine_step _ _ _ _ _ V R2 H3) as M3. cbn [m_call] in M3. rewrite Em, M2 in M3. injection M3 as -> <-.
  exists e2, e3, o2. split; [exact H2|]. split; [exact R2|]. split; [exact Hs2|]. split; [lia|]. split; [lia|].
  split; [exact H3|]. cbn [machine_of m_reserved] in Er. destruct E2 as (_ & B2 & _). lia.
Qed.

Lemma churn_run c sd p q uid n : forall e e1 o,
  valid_config c -> reachable c e -> in_sync c e -> step c e (OpLimit sd p q uid) = Done (e1, Ok (OutLimit o)) ->
  exists e' outs, run c e (churn sd p q uid (ex_next_id e) n) = Done (e', outs) /\ forallb is_ok outs = true /\
    om_debits e' = om_debits e + Z.of_nat n * (order_margin_of e1 - order_margin_of e).
Proof.
  induction n as [|n IH]; intros e e1 o V R Hs H.
  - exists e, []. split; [reflexivity|]. split; [reflexivity|]. lia.
  - destruct (churn_cycle _ _ _ _ _ _ _ _ V R Hs H) as (e2 & e3 & o3 & H2 & R2 & Hs2 & Hn & Hd & H3 & Hm).
    destruct (IH e2 e3 o3 V R2 Hs2 H3) as (e' & outs & Hr & Hok & Hd').
    exists e', (Ok (OutLimit o) :: Ok (OutLimit o) :: outs). cbn [churn run].
    rewrite H; cbn [bind]. rewrite H2; cbn [bind]. rewrite <- Hn, Hr; cbn [bind].
    split; [reflexivity|]. split; [cbn; exact Hok|]. rewrite Hd', Hd, Hm. lia.
Qed.

Lemma w_run_app w c ops1 : forall ops2 e e1 o1,
  w_run w c e ops1 = Fine (Done (e1, o1)) ->
  w_run w c e (ops1 ++ ops2) = ('(e2, o2) <~ w_run w c e1 ops2 ;; ret (e2, o1 ++ o2)).
Proof.
  induction ops1 as [|o ops1 IH]; intros ops2 e e1 o1 H; cbn [app w_run] in *.
  - injection H as <- <-. destruct (w_run w c e ops2) as [[[e2 o2]|]|]; reflexivity.
  - destruct (w_step w c e o) as [[[e' r]|]|]; cbn [cbind] in *; try discriminate.
    destruct (w_run w c e' ops1) as [[[e'' rs]|]|] eqn:E; cbn [cbind] in *; try discriminate.
    injection H as <- <-. rewrite (IH ops2 e' e'' rs E).
    destruct (w_run w c e'' ops2) as [[[e2 o2]|]|]; reflexivity.
Qed.

Lemma churn_overflows w c ops e outs sd p q uid e1 o :
  0 < w -> valid_config c -> w_play w c ops = Fine (Done (e, outs)) -> in_sync c e ->
  step c e (OpLimit sd p q uid) = Done (e1, Ok (OutLimit o)) -> order_margin_of e < order_margin_of e1 ->
  exists n, w_play w c (ops ++ churn sd p q uid (ex_next_id e) n) = Overflow.
Proof.
  intros Hw V Hp Hs H Hm. unfold w_play in *.
  destruct (w_init w c) as [[e0|]|] eqn:E0; cbn [cbind] in *; try discriminate.
  assert (F0 : fits_totals w (ex_acc e0)) by (exact (g_init w c Hw e0 E0)).
  pose proof (g_run w c ops e0 F0 _ Hp) as Fe. unfold st_fits in Fe; cbn [fst] in Fe.
  assert (R : reachable c e).
  { exists ops, outs. exists e0. split.
    - destruct (r_init w c) as [E|E]; rewrite E in E0; [discriminate|]. injection E0 as E0. exact E0.
    - destruct (r_run w c ops e0) as [E|E]; rewrite E in Hp; [discriminate|]. injection Hp as Hp. exact Hp. }
  set (d := order_margin_of e1 - order_margin_of e) in *.
  assert (L : 0 <= 2 ^ (w - 1)) by (apply Z.pow_nonneg; lia).
  set (k := Z.to_nat (2 ^ (w - 1) + Z.abs (om_debits e))).
  exists k. rewrite (w_run_app _ _ _ _ _ _ _ Hp).
  destruct (churn_run c sd p q uid k e e1 o V R Hs H) as (e' & outs' & Hr & _ & Hd). fold d in Hd.
  destruct (r_run w c (churn sd p q uid (ex_next_id e) k) e) as [E|E]; [rewrite E; reflexivity|].
  exfalso. rewrite Hr in E. pose proof (g_run w c _ e Fe _ E) as F. unfold st_fits in F; cbn [fst] in F.
  destruct (F ORDER_MARGIN) as [F1 _]. fold (om_debits e') in F1. unfold fits in F1.
  apply andb_prop in F1 as [_ F1]. assert (0 < d) by (unfold d; lia).
  assert (Z.of_nat k = 2 ^ (w - 1) + Z.abs (om_debits e)) by (unfold k; rewrite Z2Nat.id; lia). nia.
Qed.
