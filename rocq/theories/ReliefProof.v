(** Cancelling an order makes room. *)
From Coq Require Import Permutation.
From Verif Require Import ProofBase BookLemmas Inv Types Accounting Filters Position OrderBook OrderMargin MarketUpdate Exchange Spec SpecConfig SpecMarket SpecFlow SpecMargin SpecPanic
  SpecMachine SpecCrash MachineProof CrashProof MarginProof OrderProof HealthProof CashProof SpecBatch BatchProof UndoProof.

Lemma exec_ok c e o e' r : valid_config c -> reachable c e -> step c e o = Done (e', r) -> m_crash c (machine_of e) o = None /\ m_call c (machine_of e) o = (machine_of e', r).
Proof.
  intros V R S. pose proof (exec_step c e o V R) as E. rewrite S in E. cbn [seen] in E. unfold m_exec in E. destruct (m_crash c (machine_of e) o); [discriminate|].
  split; [reflexivity|]. congruence.
Qed.
Lemma ok_exec c e o m' r : valid_config c -> reachable c e -> m_crash c (machine_of e) o = None -> m_call c (machine_of e) o = (m', r) ->
  exists e', step c e o = Done (e', r) /\ machine_of e' = m'.
Proof.
  intros V R S K. pose proof (exec_step c e o V R) as E. unfold m_exec in E. rewrite S, K in E. destruct (step c e o) as [[e' r']|]; [|discriminate]. cbn [seen] in E.
  injection E as E1 E2. exists e'. subst r'. auto.
Qed.
(** What cancelling does. *)
Lemma cancelled c e b e1 x : valid_config c -> reachable c e -> step c e (OpCancel b) = Done (e1, Ok (OutLimit x)) ->
  machine_of e1 = m_drop c (machine_of e) b /\ find (named b) (ex_active e) = Some x /\
  order_margin_of e = need c (ex_active e) (position_quantity (ex_pos e)) /\ order_margin_of e1 <= order_margin_of e.
Proof.
  intros V R S. destruct (exec_ok c e _ e1 _ V R S) as [C K]. cbn [m_call m_crash] in C, K. unfold m_cancel in K. unfold cancel_crash in C.
  change (m_orders (machine_of e)) with (ex_active e) in *. destruct (find (named b) (ex_active e)) as [y|] eqn:F; [|discriminate].
  apply (f_equal (fun z => (fst z, snd z))) in K. cbn [fst snd] in K. pose proof (f_equal fst K) as K1. pose proof (f_equal snd K) as K2. cbn [fst snd] in K1, K2. injection K2 as ->.
  split; [symmetry; exact K1|]. split; [reflexivity|]. unfold demand in C. change (m_reserved (machine_of e)) with (order_margin_of e) in C. change (m_pos (machine_of e)) with (position_quantity (ex_pos e)) in C.
  destruct (Z.eqb_spec (order_margin_of e) (need c (ex_active e) (position_quantity (ex_pos e)))) as [E|E]; [|discriminate]. split; [exact E|].
  cbn [first_of] in C. destruct (Z.leb_spec (m_reserved (m_drop c (machine_of e) b)) (order_margin_of e)) as [G|G]; [|discriminate]. rewrite K1 in G. exact G.
Qed.

(** ** Market orders *)
Lemma relief_market c e b e1 x sd q uid e2 o : valid_config c -> reachable c e -> step c e (OpCancel b) = Done (e1, Ok (OutLimit x)) ->
  step c e (OpMarket sd q uid) = Done (e2, Ok o) ->
  exists e3, step c e1 (OpMarket sd q uid) = Done (e3, Ok o) /\ statement_of e3 = statement_of e2 /\ position_margin_of e3 = position_margin_of e2 /\
    ex_active e3 = ex_active e1 /\ wallet_of e2 <= wallet_of e3.
Proof.
  intros V R S M. destruct (cancelled c e b e1 x V R S) as (E1 & _ & _ & L). destruct (exec_ok c e _ e2 _ V R M) as [C K]. cbn [m_call m_crash] in C, K.
  assert (F : m_free (machine_of e) <= m_free (machine_of e1)).
  { rewrite E1. unfold m_free, m_drop. cbn [with_orders m_book m_held m_reserved]. pose proof (f_equal m_reserved E1) as X. cbn [machine_of m_reserved] in X. unfold m_drop in X. cbn [with_orders m_reserved] in X. cbn [machine_of m_reserved]. cbn [machine_of m_reserved] in X. lia. }
  pose proof (f_equal m_book E1) as B1. pose proof (f_equal m_held E1) as B2. pose proof (f_equal m_bid E1) as B3. pose proof (f_equal m_ask E1) as B4. pose proof (f_equal m_time E1) as B5. pose proof (f_equal m_next E1) as B6.
  unfold m_drop in B1, B2, B3, B4, B5, B6. cbn [with_orders m_book m_held m_bid m_ask m_time m_next] in B1, B2, B3, B4, B5, B6.
  set (m := machine_of e) in *. set (m1 := machine_of e1) in *.
  assert (T : taken c m1 sd q = taken c m sd q) by (unfold taken, m_price; rewrite B3, B4; reflexivity).
  assert (P : m_price m1 sd = m_price m sd) by (unfold m_price; rewrite B3, B4; reflexivity).
  unfold m_market in K. destruct (q <=? 0) eqn:Q0; [discriminate|]. destruct (quantity_fault (ct_qf (c_spec c)) q) eqn:QF; [discriminate|].
  destruct (m_funded c m sd q) eqn:FU; [|discriminate].
  assert (FU1 : m_funded c m1 sd q = true).
  { unfold m_funded, m_pos in *. assert (T' : forall z, taken c m1 sd z = taken c m sd z) by (intros z; unfold taken, m_price; rewrite B3, B4; reflexivity).
    rewrite !T', P, B1, B2 in *. destruct (_ || _); [apply Z.leb_le in FU; apply Z.leb_le; lia|].
    apply orb_prop in FU as [FU|FU]; [rewrite FU; reflexivity|]. apply orb_true_intro. right. apply Z.leb_le in FU. apply Z.leb_le. lia. }
  assert (C1 : market_crash c m1 sd q = None).
  { revert C. unfold market_crash, take_crash, fill_crash, m_pos. rewrite Q0, QF, FU, FU1, P, T, B1, B2. auto. }
  destruct (ok_exec c e1 (OpMarket sd q uid) (with_id (m_fill c m1 (taken c m1 sd q))) (Ok o) V (reach_step _ _ _ _ _ R S)) as (e3 & H & M3).
  { exact C1. }
  { cbn [m_call]. fold m1. unfold m_market. rewrite Q0, QF, FU1. f_equal. apply (f_equal snd) in K. cbn [snd] in K. rewrite B5, B6, P. exact K. }
  exists e3. split; [exact H|]. apply (f_equal fst) in K. cbn [fst] in K.
  assert (S1 : m_book (machine_of e3) = m_book (machine_of e2)) by (rewrite M3, <- K; cbn [with_id m_fill m_book]; rewrite T, B1; reflexivity).
  assert (S2 : m_held (machine_of e3) = m_held (machine_of e2)) by (rewrite M3, <- K; cbn [with_id m_fill m_held]; rewrite T, B1, B2; reflexivity).
  split; [exact S1|]. split; [exact S2|]. split; [exact (f_equal m_orders M3)|].
  rewrite <- !machine_wallet. unfold m_free. rewrite S1, S2. pose proof (f_equal m_reserved M3) as R3. pose proof (f_equal m_reserved K) as R2. cbn [with_id m_fill m_reserved] in R2, R3. rewrite R3, <- R2.
  unfold m1, m. cbn [machine_of m_reserved]. lia.
Qed.

(** ** Limit orders *)
Lemma relief_limit c e b e1 x sd p q uid e2 o : valid_config c -> reachable c e -> step c e (OpCancel b) = Done (e1, Ok (OutLimit x)) ->
  step c e (OpLimit sd p q uid) = Done (e2, Ok (OutLimit o)) ->
  (ex_pos e = Neutral \/ no_ties (ex_active e2) \/ exists g, exact_book (c_kind c) (c_scale c) g (position_quantity (ex_pos e)) (ex_active e2)) ->
  exists e3, step c e1 (OpLimit sd p q uid) = Done (e3, Ok (OutLimit o)) /\ ex_active e3 = ex_active e1 ++ [o] /\ statement_of e3 = statement_of e2 /\
    position_margin_of e3 = position_margin_of e2 /\ wallet_of e2 <= wallet_of e3.
Proof.
  intros V R S M CL. destruct (cancelled c e b e1 x V R S) as (E1 & FD & SY & L). destruct (exec_ok c e _ e2 _ V R M) as [C K]. cbn [m_call m_crash] in C, K.
  pose proof (f_equal m_book E1) as B1. pose proof (f_equal m_held E1) as B2. pose proof (f_equal m_bid E1) as B3. pose proof (f_equal m_ask E1) as B4. pose proof (f_equal m_time E1) as B5. pose proof (f_equal m_next E1) as B6.
  pose proof (f_equal m_reserved E1) as B7. pose proof (f_equal m_orders E1) as B8.
  unfold m_drop in B1, B2, B3, B4, B5, B6, B7, B8. cbn [with_orders m_book m_held m_bid m_ask m_time m_next m_reserved m_orders] in B1, B2, B3, B4, B5, B6, B7, B8.
  pose proof (good_of_inv _ _ (reachable_inv c e2 (vc_max _ V) (reach_step _ _ _ _ _ R M))) as G.
  set (m := machine_of e) in *. set (m1 := machine_of e1) in *.
  unfold m_limit in K. destruct (p <=? 0) eqn:P0; [discriminate|]. destruct (q <=? 0) eqn:Q0; [discriminate|]. unfold m_submit in K.
  destruct (quantity_fault (ct_qf (c_spec c)) q) eqn:QF; [discriminate|]. destruct (price_fault _ _ _ p) eqn:PF; [discriminate|].
  set (o0 := {| lo_uid := uid; lo_side := sd; lo_price := p; lo_rem := q; lo_id := m_next m; lo_ts := m_time m; lo_filled := Unfilled |}) in *.
  destruct (Z.ltb_spec (m_free m + need c (m_orders m) (m_pos m)) (need c (m_orders m ++ [o0]) (m_pos m))) as [N|N]; [discriminate|].
  destruct (match sd with Buy => m_ask m <=? p | Sell => p <=? m_bid m end) eqn:GT; [discriminate|].
  destruct (Z.leb_spec (c_max c) (Z.of_nat (length (m_orders m)))) as [LE|LE]; [discriminate|].
  pose proof (f_equal snd K) as K2. cbn [snd] in K2. injection K2 as <-. apply (f_equal fst) in K. cbn [fst] in K.
  pose proof (f_equal m_orders K) as A2. cbn [with_id with_orders m_orders] in A2. change (m_orders (machine_of e2)) with (ex_active e2) in A2.
  pose proof (take_perm _ _ _ FD) as TP. change (ex_active e) with (m_orders m) in TP, FD.
  assert (CA : clear_at c (m_pos m) (m_orders m ++ [o0])).
  { rewrite A2. destruct CL as [CL|[CL|CL]]; [left; change (position_quantity (ex_pos e) = 0); rewrite CL; reflexivity | right; left; exact CL | right; right; exact CL]. }
  assert (ND : need c (m_orders m1 ++ [o0]) (m_pos m) <= need c (m_orders m ++ [o0]) (m_pos m)).
  { apply (need_drop c _ _ _ x V); [rewrite A2; exact G | rewrite B8; apply (Permutation_app_tail [o0]) in TP; exact TP | exact CA]. }
  assert (P1 : m_pos m1 = m_pos m) by (unfold m_pos; rewrite B1; reflexivity).
  assert (SY' : m_reserved m = need c (m_orders m) (m_pos m)) by exact SY.
  assert (MO : need c (m_orders m1) (m_pos m) <= need c (m_orders m1 ++ [o0]) (m_pos m)).
  { apply need_snoc; [apply (vc_scale _ V) | apply (vc_imr _ V) | ]. intros y I. apply G. rewrite <- A2. apply in_app_or in I as [I|I]; apply in_or_app; [left|right; exact I].
    rewrite B8 in I. apply (Permutation_in _ (Permutation_sym TP)). right. exact I. }
  assert (FR : m_free m1 + need c (m_orders m1) (m_pos m) = m_free m + need c (m_orders m) (m_pos m)).
  { unfold m_free. rewrite B1, B2, B7, <- B8. lia. }
  assert (LEN : (length (m_orders m1) < length (m_orders m))%nat) by (rewrite B8; rewrite (Permutation_length TP); cbn [length]; lia).
  assert (K1 : m_limit c m1 sd p q uid = (with_id (with_orders m1 (m_orders m1 ++ [o0]) (m_reserved m1 + Z.abs (need c (m_orders m1 ++ [o0]) (m_pos m) - m_reserved m1))), Ok (OutLimit o0))).
  { unfold m_limit, m_submit. rewrite P0, Q0, QF, B3, B4, PF, P1, B5, B6. fold o0.
    destruct (Z.ltb_spec (m_free m1 + need c (m_orders m1) (m_pos m)) (need c (m_orders m1 ++ [o0]) (m_pos m))); [lia|]. rewrite GT.
    destruct (Z.leb_spec (c_max c) (Z.of_nat (length (m_orders m1)))); [lia|]. reflexivity. }
  assert (R1 : m_reserved m1 = need c (m_orders m1) (m_pos m)) by (rewrite B7, B8; reflexivity).
  assert (CR : m_crash c m1 (OpLimit sd p q uid) = None).
  { cbn [m_crash]. fold m1. unfold limit_crash. rewrite P0, Q0. cbn [orb]. unfold submit_crash. unfold m_limit in K1. rewrite P0, Q0 in K1. rewrite K1. unfold demand.
    match goal with |- (if ?a then _ else _) = _ => assert (X : a = true); [|rewrite X; reflexivity] end. apply orb_true_intro. right. apply Z.leb_le.
    unfold m_free at 1. cbn [with_id with_orders m_book m_held m_reserved]. unfold m_free in *. lia. }
  destruct (ok_exec c e1 (OpLimit sd p q uid) _ _ V (reach_step _ _ _ _ _ R S) CR K1) as (e3 & H & M3).
  exists e3. split; [exact H|]. split; [exact (f_equal m_orders M3)|].
  assert (S1 : m_book (machine_of e3) = m_book (machine_of e2)) by (rewrite M3, <- K; exact B1).
  assert (S2 : m_held (machine_of e3) = m_held (machine_of e2)) by (rewrite M3, <- K; exact B2).
  split; [exact S1|]. split; [exact S2|]. rewrite <- !machine_wallet. unfold m_free. rewrite S1, S2.
  pose proof (f_equal m_reserved M3) as X3. pose proof (f_equal m_reserved K) as X2. cbn [with_id with_orders m_reserved] in X2, X3. rewrite X3, <- X2.
  assert (MM : need c (m_orders m) (m_pos m) <= need c (m_orders m ++ [o0]) (m_pos m)) by (apply need_snoc; [apply (vc_scale _ V) | apply (vc_imr _ V) | rewrite A2; exact G]). lia.
Qed.
