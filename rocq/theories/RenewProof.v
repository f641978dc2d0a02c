(** Amending an order to what it already is. *)
From Coq Require Import Permutation.
From Verif Require Import ProofBase BookLemmas Inv Types Accounting Filters Position OrderBook OrderMargin MarketUpdate Exchange Spec SpecConfig SpecMarket SpecFlow SpecMargin SpecPanic
  SpecMachine SpecCrash MachineProof CrashProof MarginProof OrderProof HealthProof TotalProof CashProof BenchProof SpecBatch BatchProof UndoProof ReliefProof SpecRenew.

Lemma pairs_renewed e o uid b b' : Permutation b (o :: b') -> forall sd, Permutation (pairs sd b) (pairs sd (b' ++ [renewed e o uid])).
Proof.
  intros P sd. rewrite (pairs_perm sd _ _ P). change (o :: b') with ([o] ++ b'). rewrite !pairs_app. rewrite Permutation_app_comm. apply Permutation_app_head.
  unfold pairs. cbn [flat_map renewed lo_side lo_price lo_rem]. reflexivity.
Qed.

Section Renew.
Variables (c : config) (V : valid_config c) (e : exchange) (R : reachable c e) (S : in_sync c e) (W : 0 <= wallet_of e).
Variables (C : clear_book c e (ex_active e)) (o : limit_order) (O : In o (ex_active e)) (uid : Z).
Let m := machine_of e.
Let m1 := m_drop c m (ByOrderId (lo_id o)).

Lemma renew_facts : find (named (ByOrderId (lo_id o))) (m_orders m) = Some o /\ Permutation (m_orders m) (o :: m_orders m1) /\ m_level c m /\ m_level c m1 /\ good_book (m_orders m1) /\
  m_reserved m1 <= m_reserved m /\ need c (m_orders m1 ++ [renewed e o uid]) (m_pos m1) = m_reserved m /\ m_free m1 + m_reserved m1 = wallet_of e + m_reserved m /\
  Z.of_nat (length (m_orders m1)) < c_max c /\ cancel_crash c m (ByOrderId (lo_id o)) = None /\ 0 < lo_price o /\ 0 < lo_rem o /\ 0 <= lo_filled_qty o.
Proof.
  pose proof (reachable_inv c e (vc_max _ V) R) as I. destruct (batch_level c e V R S) as [L G]. fold m in L, G.
  assert (F : find (named (ByOrderId (lo_id o))) (m_orders m) = Some o) by (apply find_id; [exact (inv_nodup _ _ I) | exact O]).
  pose proof (take_perm _ _ _ F) as P. change (Permutation (m_orders m) (o :: m_orders m1)) in P.
  pose proof (need_drop c _ _ _ _ V G P (clear_of _ _ _ C)) as LE. change (position_quantity (ex_pos e)) with (m_pos m) in LE. rewrite <- L in LE. change (need c (m_orders m1) (m_pos m)) with (m_reserved m1) in LE.
  assert (N : need c (m_orders m1 ++ [renewed e o uid]) (m_pos m1) = m_reserved m).
  { symmetry. rewrite L. apply (need_same c e _ _ V G C). apply pairs_renewed. exact P. }
  split; [exact F|]. split; [exact P|]. split; [exact L|]. split; [reflexivity|]. split; [intros x X; apply G; rewrite P; right; exact X|]. split; [exact LE|]. split; [exact N|].
  split. { rewrite <- machine_wallet. fold m. unfold m1, m_drop, m_free. cbn [with_orders m_book m_held m_reserved]. lia. }
  split. { pose proof (inv_len _ _ I) as H. change (ex_active e) with (m_orders m) in H. rewrite (Permutation_length P) in H. cbn [length] in H. lia. }
  split. { unfold cancel_crash. rewrite F, L, Z.eqb_refl. cbn [demand first_of]. fold m1. rewrite <- L. destruct (Z.leb_spec (m_reserved m1) (m_reserved m)); [reflexivity|lia]. }
  destruct (inv_ok _ _ I o O) as (A & B & D). split; [exact B|]. split; [exact A|]. exact (order_ok_filled o (inv_ok _ _ I o O)).
Qed.

Lemma renew_call : m_call c m (unchanged o uid) = m_submit c m1 (lo_side o) (lo_price o) (lo_rem o) uid /\
  m_crash c m (unchanged o uid) = submit_crash c m1 (lo_side o) (lo_price o) (lo_rem o) uid.
Proof.
  destruct renew_facts as (F & P & L & L1 & G & LE & N & Fr & Le & Cr & Hp & Hr & Hf).
  unfold unchanged. cbn [m_call m_crash]. unfold m_amend, amend_crash. rewrite F, Cr. cbv zeta. replace (lo_rem o + lo_filled_qty o - lo_filled_qty o) with (lo_rem o) by lia.
  destruct (Z.leb_spec (lo_price o) 0); [lia|]. destruct (Z.leb_spec (lo_rem o + lo_filled_qty o) 0); [lia|]. destruct (Z.leb_spec (lo_rem o) 0); [lia|]. cbn [orb first_of].
  fold m1. split; [reflexivity|]. destruct (submit_crash _ _ _ _ _ _); reflexivity.
Qed.

Lemma renew_ok : suits c e (rest_of o uid) ->
  exists e', step c e (unchanged o uid) = Done (e', Ok (OutLimit (renewed e o uid))) /\ Permutation (ex_active e ++ [renewed e o uid]) (o :: ex_active e') /\
    wallet_of e' = wallet_of e /\ order_margin_of e' = order_margin_of e /\ statement_of e' = statement_of e /\ position_margin_of e' = position_margin_of e.
Proof.
  intros H. destruct renew_facts as (F & P & L & L1 & G & LE & N & Fr & Le & Cr & Hp & Hr & Hf). destruct renew_call as [K1 K2].
  assert (X : need c (m_full m1 [rest_of o uid]) (m_pos m1) <= m_free m1 + m_reserved m1).
  { change (m_full m1 [rest_of o uid]) with (m_orders m1 ++ [renewed e o uid]). rewrite N. lia. }
  pose proof (one_works c V m1 (rest_of o uid) L1 G H Le X) as E. unfold m_exec, sent in E. cbn [m_crash m_call rest_of t_side t_price t_qty t_uid] in E. unfold limit_crash, m_limit in E.
  destruct (Z.leb_spec (lo_price o) 0); [lia|]. destruct (Z.leb_spec (lo_rem o) 0); [lia|]. cbn [orb] in E. rewrite <- K1, <- K2 in E.
  destruct (m_crash c m (unchanged o uid)) eqn:Y; [discriminate|]. apply (f_equal (fun x => match x with Done p => p | Panic _ => (m, Ok OutUnit) end)) in E. cbv beta iota in E.
  destruct (ok_exec c e _ _ _ V R Y E) as (e' & T & M). exists e'. split; [exact T|].
  pose proof (f_equal m_orders M) as M1. pose proof (f_equal m_reserved M) as M2. pose proof (f_equal m_book M) as M3. pose proof (f_equal m_held M) as M4.
  change (ex_active e' = m_orders m1 ++ [renewed e o uid]) in M1. change (order_margin_of e' = need c (m_orders m1 ++ [renewed e o uid]) (m_pos m1)) in M2. rewrite N in M2. change (m_reserved m) with (order_margin_of e) in M2.
  change (statement_of e' = statement_of e) in M3. change (position_margin_of e' = position_margin_of e) in M4.
  split. { rewrite M1. change (ex_active e) with (m_orders m). rewrite P. reflexivity. }
  split. { rewrite <- !machine_wallet. unfold m_free. cbn [machine_of m_book m_held m_reserved]. rewrite M2, M3, M4. reflexivity. }
  auto.
Qed.

Lemma renew_lost : ~ suits c e (rest_of o uid) ->
  exists e' err, step c e (unchanged o uid) = Done (e', Err (EOrder err)) /\ Permutation (ex_active e) (o :: ex_active e') /\
    statement_of e' = statement_of e /\ position_margin_of e' = position_margin_of e.
Proof.
  intros H. destruct renew_facts as (F & P & L & L1 & G & LE & N & Fr & Le & Cr & Hp & Hr & Hf). destruct renew_call as [K1 K2].
  assert (X : exists m' err, m_submit c m1 (lo_side o) (lo_price o) (lo_rem o) uid = (m', Err (EOrder err)) /\ m_orders m' = m_orders m1 /\ m_book m' = m_book m1 /\ m_held m' = m_held m1).
  { unfold m_submit. destruct (quantity_fault (ct_qf (c_spec c)) (lo_rem o)) as [x|] eqn:Q; [exists m1, x; auto|].
    destruct (price_fault (c_scale c) (ct_pf (c_spec c)) (Z.quot (m_bid m1 + m_ask m1) 2) (lo_price o)) as [x|] eqn:Pf; [exists m1, x; auto|]. cbv zeta.
    change (m_orders m1 ++ [_]) with (m_orders m1 ++ [renewed e o uid]). rewrite N. change (need c (m_orders m1) (m_pos m1)) with (m_reserved m1).
    destruct (Z.ltb_spec (m_free m1 + m_reserved m1) (m_reserved m)); [lia|].
    destruct (match lo_side o with Buy => m_ask m1 <=? lo_price o | Sell => lo_price o <=? m_bid m1 end) eqn:Cx; [exists (with_id m1), GoodTillCrossingRejectedOrder; auto|].
    exfalso. apply H. unfold suits, rest_of. cbn [t_side t_price t_qty]. split; [exact Hp|]. split; [exact Hr|]. split; [exact Q|]. split; [exact Pf|].
    change (ms_ask (ex_ms e)) with (m_ask m1). change (ms_bid (ex_ms e)) with (m_bid m1). destruct (lo_side o); lia. }
  destruct X as (m' & err & X & X1 & X2 & X3).
  assert (Y : m_crash c m (unchanged o uid) = None) by (rewrite K2; unfold submit_crash; rewrite X; reflexivity). rewrite X in K1.
  destruct (ok_exec c e _ _ _ V R Y K1) as (e' & T & M). exists e', err. split; [exact T|]. subst m'.
  change (ex_active e' = m_orders m1) in X1. change (statement_of e' = statement_of e) in X2. change (position_margin_of e' = position_margin_of e) in X3.
  split; [rewrite X1; exact P|]. auto.
Qed.
End Renew.
