(** Order ids are consecutive numbers without a meaning. *)
From Verif Require Import ProofBase Types Accounting Filters Position OrderBook OrderMargin MarketUpdate Exchange Spec SpecConfig SpecMarket SpecFlow SpecMargin SpecPanic
  SpecMachine SpecCrash MachineProof CrashProof PositionFacts PanicCor SpecMemory MemoryProof SpecFresh.

Section From.
Variable n : Z.
Notation F := (state_from n).
Notation f := (order_from n).
Lemma from_pairs sd l : pairs sd (map f l) = pairs sd l.
Proof. unfold pairs. induction l as [|o l IH]; [reflexivity|]. cbn [map flat_map]. rewrite IH. reflexivity. Qed.
Lemma from_need c l p : SpecMachine.need c (map f l) p = SpecMachine.need c l p.
Proof. unfold SpecMachine.need, ranking. rewrite !from_pairs. reflexivity. Qed.
Lemma last_from : forall l d, last (map f l) (f d) = f (last l d).
Proof. induction l as [|a l IH]; intros d; [reflexivity|]. destruct l as [|b l]; [reflexivity|]. exact (IH d). Qed.
Lemma removelast_from : forall l, removelast (map f l) = map f (removelast l).
Proof. induction l as [|a l IH]; [reflexivity|]. destruct l as [|b l]; [reflexivity|]. change (f a :: removelast (map f (b :: l)) = f a :: map f (removelast (b :: l))). rewrite IH. reflexivity. Qed.
Lemma take_from p p' : (forall o, p' (f o) = p o) -> forall l, take_out p' (map f l) = map f (take_out p l).
Proof.
  intros H. induction l as [|o l IH]; [reflexivity|]. cbn [map take_out]. rewrite H. destruct (p o); [|cbn [map]; rewrite IH; reflexivity].
  destruct l as [|a l]; [reflexivity|]. cbn [map]. change (f a :: map f l) with (map f (a :: l)). rewrite last_from, removelast_from. reflexivity.
Qed.
Lemma find_from p p' : (forall o, p' (f o) = p o) -> forall l, find p' (map f l) = option_map f (find p l).
Proof. intros H. induction l as [|o l IH]; [reflexivity|]. cbn [map find]. rewrite H. destruct (p o); [reflexivity | exact IH]. Qed.
Lemma id_from a b : (a + n =? b + n) = (a =? b).
Proof. destruct (Z.eqb_spec a b); destruct (Z.eqb_spec (a + n) (b + n)); lia || reflexivity. Qed.
Definition by_from (b : cancel_by) : cancel_by := match b with ByOrderId i => ByOrderId (i + n) | ByUserOrderId u => ByUserOrderId u end.
Lemma named_from b o : named (by_from b) (f o) = named b o.
Proof. destruct b as [i|u]; [apply id_from | reflexivity]. Qed.
Lemma reported_from s o q ts : reported_as s (f o) q ts = update_from n (reported_as s o q ts).
Proof. unfold reported_as. cbn [order_from lo_rem lo_uid lo_side lo_price lo_id lo_ts lo_filled]. destruct (q =? lo_rem o); reflexivity. Qed.
Lemma touched_from ru o : touched ru (f o) = touched ru o.
Proof. destruct ru; reflexivity. Qed.
Lemma reports_from s ru l : reports s ru (map f l) = map (update_from n) (reports s ru l).
Proof.
  unfold reports. induction l as [|o l IH]; [reflexivity|]. cbn [map flat_map]. rewrite touched_from, IH. destruct (touched ru o) as [q|]; [|reflexivity]. rewrite reported_from. reflexivity.
Qed.
Lemma swap_from o o' l : map (fun x => if lo_id x =? lo_id (f o) then f o' else x) (map f l) = map f (map (fun x => if lo_id x =? lo_id o then o' else x) l).
Proof.
  rewrite !map_map. apply map_ext. intros x. change (lo_id (f x)) with (lo_id x + n). change (lo_id (f o)) with (lo_id o + n). rewrite id_from. destruct (lo_id x =? lo_id o); reflexivity.
Qed.
Lemma meet_from c ru m o : m_meet c ru (F m) (f o) = F (m_meet c ru m o).
Proof.
  unfold m_meet. rewrite touched_from. destruct (touched ru o) as [q|]; [|reflexivity]. rewrite reported_from.
  change (m_orders (F m)) with (map f (m_orders m)). cbv zeta. change (lo_id (f o)) with (lo_id o + n).
  destruct (reported_as (c_scale c) o q (time_of ru)) as [o'|x]; cbn [update_from].
  - change (lo_id o + n) with (lo_id (f o)). rewrite swap_from, from_need. reflexivity.
  - rewrite (take_from (named (ByOrderId (lo_id o)))) by (intros y; exact (named_from (ByOrderId (lo_id o)) y)). rewrite from_need. reflexivity.
Qed.
Lemma meets_from c ru : forall l m, fold_left (m_meet c ru) (map f l) (F m) = F (fold_left (m_meet c ru) l m).
Proof. induction l as [|o l IH]; intros m; [reflexivity|]. cbn [map fold_left]. rewrite meet_from. apply IH. Qed.
Lemma all_from c ru m : m_meet_all c ru (F m) = F (m_meet_all c ru m).
Proof. exact (meets_from c ru (m_orders m) m). Qed.
Definition both_from (x : machine * result error out) : machine * result error out := (F (fst x), answer_from n (snd x)).
Lemma next_from m : with_id (F m) = F (with_id m).
Proof. unfold with_id, state_from. cbn [m_book m_held m_reserved m_orders m_bid m_ask m_time m_next]. f_equal. lia. Qed.
Lemma submit_from c m sd p q uid : m_submit c (F m) sd p q uid = both_from (m_submit c m sd p q uid).
Proof.
  unfold m_submit. destruct (quantity_fault _ _); [reflexivity|]. change (m_bid (F m)) with (m_bid m). change (m_ask (F m)) with (m_ask m).
  destruct (price_fault _ _ _ _); [reflexivity|]. cbv zeta.
  change (m_free (F m)) with (m_free m). change (m_orders (F m)) with (map f (m_orders m)). change (m_pos (F m)) with (m_pos m).
  change (m_time (F m)) with (m_time m). change (m_reserved (F m)) with (m_reserved m).
  set (o := {| lo_uid := uid; lo_side := sd; lo_price := p; lo_rem := q; lo_id := m_next m; lo_ts := m_time m; lo_filled := Unfilled |}).
  change {| lo_uid := uid; lo_side := sd; lo_price := p; lo_rem := q; lo_id := m_next (F m); lo_ts := m_time m; lo_filled := Unfilled |} with (f o).
  change (map f (m_orders m) ++ [f o]) with (map f (m_orders m) ++ map f [o]). rewrite <- map_app, !from_need, map_length.
  destruct (_ <? _); [rewrite next_from; reflexivity|]. destruct (match sd with Buy => _ | Sell => _ end); [rewrite next_from; reflexivity|]. destruct (_ <=? _); [rewrite next_from; reflexivity|].
  unfold both_from. cbn [fst snd answer_from]. rewrite <- next_from. reflexivity.
Qed.
Lemma drop_from c m b : m_drop c (F m) (by_from b) = F (m_drop c m b).
Proof.
  unfold m_drop. cbv zeta. change (m_orders (F m)) with (map f (m_orders m)). rewrite (take_from (named b)) by (intros y; apply named_from). rewrite from_need. reflexivity.
Qed.
Lemma unknown_from m b : Err (m_unknown (F m) (by_from b)) = answer_from n (Err (m_unknown m b)).
Proof.
  destruct b as [i|u]; [|reflexivity]. cbn [by_from m_unknown]. change (m_next (F m)) with (m_next m + n).
  destruct (Z.ltb_spec i (m_next m)); destruct (Z.ltb_spec (i + n) (m_next m + n)); try lia; reflexivity.
Qed.
Lemma call_from_ok c m o : m_call c (F m) (call_from n o) = both_from (m_call c m o).
Proof.
  destruct o as [ru|sd q uid|sd p q uid|b|id sd p q uid|ru]; cbn [call_from m_call].
  - unfold m_update. change (with_quote (F m) ru) with (F (with_quote m ru)). cbv zeta. change (m_due c (F (with_quote m ru))) with (m_due c (with_quote m ru)).
    destruct (m_due c (with_quote m ru)).
    + change (m_pos (F (with_quote m ru))) with (m_pos (with_quote m ru)). change (taken c (F (with_quote m ru))) with (taken c (with_quote m ru)).
      unfold both_from. cbn [fst snd answer_from]. rewrite <- next_from. reflexivity.
    + rewrite all_from. unfold both_from. cbn [fst snd answer_from]. change (m_orders (F (with_quote m ru))) with (map f (m_orders (with_quote m ru))). rewrite reports_from. reflexivity.
  - unfold m_market. destruct (q <=? 0); [reflexivity|]. destruct (quantity_fault _ _); [reflexivity|]. change (m_funded c (F m) sd q) with (m_funded c m sd q).
    destruct (m_funded c m sd q); unfold both_from; cbn [fst snd answer_from]; rewrite <- next_from; reflexivity.
  - unfold m_limit. destruct (p <=? 0); [reflexivity|]. destruct (q <=? 0); [reflexivity|]. apply submit_from.
  - assert (E : m_call c (F m) (call_from n (OpCancel b)) = m_cancel c (F m) (by_from b)) by (destruct b; reflexivity). cbn [call_from] in E. etransitivity; [exact E|].
    unfold m_cancel. change (m_orders (F m)) with (map f (m_orders m)). rewrite (find_from (named b)) by (intros y; apply named_from).
    destruct (find (named b) (m_orders m)) as [x|]; cbn [option_map]; [rewrite drop_from; reflexivity|]. unfold both_from. cbn [fst snd]. rewrite unknown_from. reflexivity.
  - unfold m_amend. destruct (p <=? 0); [reflexivity|]. destruct (q <=? 0); [reflexivity|]. change (m_orders (F m)) with (map f (m_orders m)).
    change (ByOrderId (id + n)) with (by_from (ByOrderId id)). rewrite (find_from (named (ByOrderId id))) by (intros y; apply named_from).
    destruct (find (named (ByOrderId id)) (m_orders m)) as [x|]; cbn [option_map]; [|unfold both_from; cbn [fst snd]; rewrite unknown_from; reflexivity].
    cbv zeta. rewrite drop_from. change (lo_filled_qty (f x)) with (lo_filled_qty x). destruct (_ <=? 0); [reflexivity|]. apply submit_from.
  - rewrite all_from. reflexivity.
Qed.
Lemma submit_crash_from c m sd p q uid : submit_crash c (F m) sd p q uid = submit_crash c m sd p q uid.
Proof. unfold submit_crash. rewrite submit_from. destruct (m_submit c m sd p q uid) as [m' [[l|x|x|]|x]]; try reflexivity. destruct x; reflexivity. Qed.
Lemma meet_crash_from c ru m o : meet_crash c ru (F m) (f o) = meet_crash c ru m o.
Proof.
  unfold meet_crash. cbv zeta. rewrite meet_from, touched_from. change (m_orders (F m)) with (map f (m_orders m)). change (m_orders (F (m_meet c ru m o))) with (map f (m_orders (m_meet c ru m o))). rewrite !from_need. reflexivity.
Qed.
Lemma meets_crash_from c ru : forall l m, meet_all_crash c ru (F m) (map f l) = meet_all_crash c ru m l.
Proof. induction l as [|o l IH]; intros m; [reflexivity|]. cbn [map meet_all_crash]. rewrite meet_crash_from, meet_from, IH. reflexivity. Qed.
Lemma check_crash_from c ru m : check_crash c (F m) ru = check_crash c m ru.
Proof.
  unfold check_crash. cbv zeta. rewrite all_from. change (m_orders (F m)) with (map f (m_orders m)). change (m_orders (F (m_meet_all c ru m))) with (map f (m_orders (m_meet_all c ru m))).
  rewrite meets_crash_from, from_need. reflexivity.
Qed.
Lemma cancel_crash_from c m b : cancel_crash c (F m) (by_from b) = cancel_crash c m b.
Proof.
  unfold cancel_crash. change (m_orders (F m)) with (map f (m_orders m)). rewrite from_need, (find_from (named b)) by (intros y; apply named_from). rewrite drop_from. destruct (find (named b) (m_orders m)); reflexivity.
Qed.
Lemma crash_from c m o : m_crash c (F m) (call_from n o) = m_crash c m o.
Proof.
  destruct o as [ru|sd q uid|sd p q uid|b|id sd p q uid|ru]; cbn [call_from m_crash].
  - unfold update_crash. change (with_quote (F m) ru) with (F (with_quote m ru)). cbv zeta. rewrite check_crash_from. reflexivity.
  - reflexivity.
  - unfold limit_crash. rewrite submit_crash_from. reflexivity.
  - transitivity (cancel_crash c (F m) (by_from b)); [destruct b; reflexivity | apply cancel_crash_from].
  - unfold amend_crash. change (ByOrderId (id + n)) with (by_from (ByOrderId id)). rewrite cancel_crash_from, drop_from. change (m_orders (F m)) with (map f (m_orders m)).
    rewrite (find_from (named (ByOrderId id))) by (intros y; apply named_from). destruct (_ || _); [reflexivity|]. destruct (find _ _) as [x|]; cbn [option_map]; [|reflexivity].
    cbv zeta. rewrite submit_crash_from. reflexivity.
  - rewrite check_crash_from. reflexivity.
Qed.
Lemma play_from c v ops : forall m, m_play c (with_fees v (F m)) (map (call_from n) ops) = after v n (m_play c m ops).
Proof.
  intros m. rewrite fees_play. revert m.
  assert (H : forall m, m_play c (F m) (map (call_from n) ops) = match m_play c m ops with Done (m', l) => Done (F m', map (answer_from n) l) | Panic w => Panic w end).
  { induction ops as [|o ops IH]; intros m; [reflexivity|]. cbn [map m_play]. unfold m_exec. rewrite crash_from. destruct (m_crash c m o); [reflexivity|]. rewrite call_from_ok. unfold both_from.
    destruct (m_call c m o) as [m1 x]. cbn [fst snd]. rewrite IH. destruct (m_play c m1 ops) as [[m2 xs]|]; reflexivity. }
  intros m. rewrite H. destruct (m_play c m ops) as [[m' l]|]; reflexivity.
Qed.
End From.

Lemma fresh_alike c x n e e' ops : valid_config c -> 0 < x -> reachable c e -> reachable (started c x) e' ->
  ex_pos e' = ex_pos e -> ex_active e = map (order_from n) (ex_active e') -> ex_next_id e = ex_next_id e' + n -> balances e = balances e' -> same_market e e' ->
  seen (run c e (map (call_from n) ops)) = after (fees_paid e - fees_paid e') n (seen (run (started c x) e' ops)).
Proof.
  intros V X R R' P O N B (Q1 & Q2 & Q3). rewrite (exec_run _ _ e V R), (exec_run _ ops e' (start_ok c x V X) R'), start_play.
  rewrite <- play_from. f_equal. unfold machine_of, with_fees, state_from, statement_of. cbn [m_book m_held m_reserved m_orders m_bid m_ask m_time m_next l_qty l_entry l_due l_cash l_paid].
  unfold wealth_of, wallet_of, position_margin_of, order_margin_of. rewrite P, O, Q1, Q2, Q3, N, B. replace (fees_paid e' + (fees_paid e - fees_paid e')) with (fees_paid e) by lia. reflexivity.
Qed.
Lemma fresh_restart c e ru e0 x ops : valid_config c -> c_dbg c = true -> reachable c e -> flat e -> 0 < wallet_of e ->
  history (started c (wallet_of e)) [OpUpdate ru] e0 x -> quote_of ru = Some (ms_bid (ex_ms e), ms_ask (ex_ms e)) -> time_of ru = ms_ts (ex_ms e) ->
  seen (run c e (map (call_from (ex_next_id e)) ops)) = after (fees_paid e) (ex_next_id e) (seen (run (started c (wallet_of e)) e0 ops)).
Proof.
  intros V D R [P O] W H Q T. pose proof (start_ok c (wallet_of e) V W) as V'.
  pose proof (flat_debug c e V R D P) as M. pose proof (empty_no_margin c e V R O) as N.
  destruct H as (i & I & H). assert (RI : reachable (started c (wallet_of e)) i) by (exists [], []; exists i; split; [exact I | reflexivity]).
  assert (R0 : reachable (started c (wallet_of e)) e0) by (exists [OpUpdate ru], x; exists i; split; assumption).
  pose proof (exec_run _ [OpUpdate ru] i V' RI) as K. rewrite H, (machine_init _ _ I) in K. cbn [seen m_play] in K.
  unfold m_exec in K. destruct (m_crash _ _ _); [discriminate K|]. cbn [m_call] in K. unfold m_update in K. cbv zeta in K.
  assert (ND : m_due (started c (wallet_of e)) (with_quote (m_start (started c (wallet_of e))) ru) = false) by reflexivity.
  rewrite ND in K. change (m_meet_all (started c (wallet_of e)) ru (with_quote (m_start (started c (wallet_of e))) ru)) with (with_quote (m_start (started c (wallet_of e))) ru) in K.
  assert (K0 : machine_of e0 = with_quote (m_start (started c (wallet_of e))) ru) by (apply (f_equal (fun y => match y with Done (m, _) => m | Panic _ => machine_of e0 end)) in K; exact K). clear K.
  rewrite (exec_run _ _ e V R), (exec_run _ ops e0 V' R0), start_play, K0, <- play_from. f_equal.
  unfold machine_of, with_fees, state_from, with_quote, m_start, ledger_start, statement_of. rewrite Q, T, P, O.
  cbn [m_book m_held m_reserved m_orders m_bid m_ask m_time m_next l_qty l_entry l_due l_cash l_paid fst snd map started c_start position_quantity position_entry_price position_outstanding_fees].
  unfold wealth_of. rewrite M, N, !Z.add_0_r, !Z.add_0_l. reflexivity.
Qed.
