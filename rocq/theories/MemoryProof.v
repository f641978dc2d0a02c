(** What an account remembers of its past. *)
From Verif Require Import ProofBase Types Accounting Filters Position OrderBook OrderMargin MarketUpdate Exchange Spec SpecConfig SpecMarket SpecFlow SpecMargin SpecPanic
  SpecMachine SpecCrash MachineProof CrashProof PositionFacts PanicCor SpecMemory.

Definition lifted (v : Z) (l : ledger) : ledger := {| l_qty := l_qty l; l_entry := l_entry l; l_due := l_due l; l_cash := l_cash l; l_paid := l_paid l + v |}.
Lemma lifted_fill v k s l f : apply_fill k s (lifted v l) f = lifted v (apply_fill k s l f).
Proof.
  unfold apply_fill, lifted. cbn [l_qty l_entry l_due l_cash l_paid]. destruct (l_qty l =? 0); [reflexivity|]. destruct (_ =? _); [reflexivity|]. cbn [l_qty l_entry l_due l_cash l_paid]. f_equal. lia.
Qed.
Lemma fees_fill v c m f : m_fill c (with_fees v m) f = with_fees v (m_fill c m f).
Proof.
  unfold m_fill, with_fees. cbn [m_book m_held m_reserved m_orders m_bid m_ask m_time m_next].
  change {| l_qty := l_qty (m_book m); l_entry := l_entry (m_book m); l_due := l_due (m_book m); l_cash := l_cash (m_book m); l_paid := l_paid (m_book m) + v |} with (lifted v (m_book m)).
  rewrite lifted_fill. reflexivity.
Qed.
Lemma fees_meet v c ru m o : m_meet c ru (with_fees v m) o = with_fees v (m_meet c ru m o).
Proof.
  unfold m_meet. destruct (touched ru o) as [q|]; [|reflexivity]. cbv zeta. rewrite fees_fill. reflexivity.
Qed.
Lemma fees_meets v c ru l : forall m, fold_left (m_meet c ru) l (with_fees v m) = with_fees v (fold_left (m_meet c ru) l m).
Proof. induction l as [|o l IH]; intros m; [reflexivity|]. cbn [fold_left]. rewrite fees_meet. apply IH. Qed.
Lemma fees_all v c ru m : m_meet_all c ru (with_fees v m) = with_fees v (m_meet_all c ru m).
Proof. exact (fees_meets v c ru (m_orders m) m). Qed.
Definition aside {A} (v : Z) (x : machine * A) : machine * A := (with_fees v (fst x), snd x).
Lemma fees_submit v c m sd p q uid : m_submit c (with_fees v m) sd p q uid = aside v (m_submit c m sd p q uid).
Proof.
  unfold m_submit. destruct (quantity_fault _ _); [reflexivity|]. change (m_bid (with_fees v m)) with (m_bid m). change (m_ask (with_fees v m)) with (m_ask m).
  destruct (price_fault _ _ _ _); [reflexivity|]. cbv zeta.
  change (m_free (with_fees v m)) with (m_free m). change (m_orders (with_fees v m)) with (m_orders m). change (m_pos (with_fees v m)) with (m_pos m).
  change (m_next (with_fees v m)) with (m_next m). change (m_time (with_fees v m)) with (m_time m). change (m_reserved (with_fees v m)) with (m_reserved m).
  destruct (_ <? _); [reflexivity|]. destruct (match sd with Buy => _ | Sell => _ end); [reflexivity|]. destruct (_ <=? _); reflexivity.
Qed.
Lemma fees_call v c m o : m_call c (with_fees v m) o = aside v (m_call c m o).
Proof.
  destruct o as [ru|sd q uid|sd p q uid|b|id sd p q uid|ru]; cbn [m_call].
  - unfold m_update. change (with_quote (with_fees v m) ru) with (with_fees v (with_quote m ru)). change (m_due c (with_fees v (with_quote m ru))) with (m_due c (with_quote m ru)).
    cbv zeta. destruct (m_due c (with_quote m ru)).
    + change (m_pos (with_fees v (with_quote m ru))) with (m_pos (with_quote m ru)). change (taken c (with_fees v (with_quote m ru))) with (taken c (with_quote m ru)). rewrite fees_fill. reflexivity.
    + rewrite fees_all. reflexivity.
  - unfold m_market. destruct (q <=? 0); [reflexivity|]. destruct (quantity_fault _ _); [reflexivity|]. change (m_funded c (with_fees v m) sd q) with (m_funded c m sd q).
    destruct (m_funded c m sd q); [|reflexivity]. change (taken c (with_fees v m)) with (taken c m). rewrite fees_fill. reflexivity.
  - unfold m_limit. destruct (p <=? 0); [reflexivity|]. destruct (q <=? 0); [reflexivity|]. apply fees_submit.
  - unfold m_cancel. change (m_orders (with_fees v m)) with (m_orders m). destruct (find _ _); reflexivity.
  - unfold m_amend. destruct (p <=? 0); [reflexivity|]. destruct (q <=? 0); [reflexivity|]. change (m_orders (with_fees v m)) with (m_orders m). destruct (find _ _) as [x|]; [|reflexivity]. cbv zeta.
    destruct (_ <=? 0); [reflexivity|]. exact (fees_submit v c (m_drop c m (ByOrderId id)) sd p (q - lo_filled_qty x) uid).
  - rewrite fees_all. reflexivity.
Qed.
Lemma fees_submit_crash v c m sd p q uid : submit_crash c (with_fees v m) sd p q uid = submit_crash c m sd p q uid.
Proof. unfold submit_crash. rewrite fees_submit. destruct (m_submit c m sd p q uid) as [m' [x|x]]; reflexivity. Qed.
Lemma fees_meet_crash v c ru m o : meet_crash c ru (with_fees v m) o = meet_crash c ru m o.
Proof. unfold meet_crash. cbv zeta. rewrite fees_meet. reflexivity. Qed.
Lemma fees_meets_crash v c ru l : forall m, meet_all_crash c ru (with_fees v m) l = meet_all_crash c ru m l.
Proof. induction l as [|o l IH]; intros m; [reflexivity|]. cbn [meet_all_crash]. rewrite fees_meet_crash, fees_meet, IH. reflexivity. Qed.
Lemma fees_check_crash v c ru m : check_crash c (with_fees v m) ru = check_crash c m ru.
Proof. unfold check_crash. cbv zeta. rewrite fees_all. change (m_orders (with_fees v m)) with (m_orders m). rewrite fees_meets_crash. reflexivity. Qed.
Lemma fees_crash v c m o : m_crash c (with_fees v m) o = m_crash c m o.
Proof.
  destruct o as [ru|sd q uid|sd p q uid|b|id sd p q uid|ru]; cbn [m_crash].
  - unfold update_crash. change (with_quote (with_fees v m) ru) with (with_fees v (with_quote m ru)). cbv zeta. rewrite fees_check_crash. reflexivity.
  - reflexivity.
  - unfold limit_crash. rewrite fees_submit_crash. reflexivity.
  - reflexivity.
  - unfold amend_crash. change (m_orders (with_fees v m)) with (m_orders m). change (m_drop c (with_fees v m) (ByOrderId id)) with (with_fees v (m_drop c m (ByOrderId id))).
    destruct (_ || _); [reflexivity|]. destruct (find _ _) as [x|]; [|reflexivity]. cbv zeta. rewrite fees_submit_crash. reflexivity.
  - rewrite fees_check_crash. reflexivity.
Qed.
Lemma fees_exec v c m o : m_exec c (with_fees v m) o = so_far v (m_exec c m o).
Proof. unfold m_exec. rewrite fees_crash. destruct (m_crash c m o); [reflexivity|]. rewrite fees_call. unfold aside. destruct (m_call c m o). reflexivity. Qed.
Lemma fees_play v c ops : forall m, m_play c (with_fees v m) ops = so_far v (m_play c m ops).
Proof.
  induction ops as [|o ops IH]; intros m; [reflexivity|]. cbn [m_play]. rewrite fees_exec. destruct (m_exec c m o) as [[m1 x]|]; [|reflexivity]. cbn [so_far]. rewrite IH.
  destruct (m_play c m1 ops) as [[m2 xs]|]; reflexivity.
Qed.
Lemma start_meets c x ru l : forall m, meet_all_crash (started c x) ru m l = meet_all_crash c ru m l.
Proof.
  induction l as [|o l IH]; intros m; [reflexivity|]. cbn [meet_all_crash]. change (meet_crash (started c x) ru m o) with (meet_crash c ru m o). change (m_meet (started c x) ru m o) with (m_meet c ru m o).
  rewrite IH. reflexivity.
Qed.
Lemma start_check c x m ru : check_crash (started c x) m ru = check_crash c m ru.
Proof. unfold check_crash. rewrite start_meets. reflexivity. Qed.
Lemma start_crash c x m o : m_crash (started c x) m o = m_crash c m o.
Proof.
  destruct o as [ru|sd q uid|sd p q uid|b|id sd p q uid|ru]; cbn [m_crash]; try reflexivity.
  - unfold update_crash. cbv zeta. rewrite start_check. reflexivity.
  - rewrite start_check. reflexivity.
Qed.
Lemma start_exec c x m o : m_exec (started c x) m o = m_exec c m o.
Proof. unfold m_exec. rewrite start_crash. destruct (m_crash c m o); [reflexivity|]. change (m_call (started c x) m o) with (m_call c m o). reflexivity. Qed.
Lemma start_play c x ops : forall m, m_play (started c x) m ops = m_play c m ops.
Proof. induction ops as [|o ops IH]; intros m; [reflexivity|]. cbn [m_play]. rewrite start_exec. destruct (m_exec c m o) as [[m1 r]|]; [|reflexivity]. rewrite IH. reflexivity. Qed.

Lemma start_ok c x : valid_config c -> 0 < x -> valid_config (started c x).
Proof. intros [H1 H2 H3 H4 H5 H6 H7] X. constructor; assumption. Qed.
Lemma memory_state c x v e e' ops : valid_config c -> valid_config (started c x) -> reachable c e -> reachable (started c x) e' -> machine_of e' = with_fees v (machine_of e) ->
  seen (run (started c x) e' ops) = so_far v (seen (run c e ops)).
Proof.
  intros V V' R R' M. rewrite (exec_run _ ops e' V' R'), (exec_run _ ops e V R), M, start_play. apply fees_play.
Qed.
Lemma alike_machine e e' : ex_pos e = ex_pos e' -> ex_active e = ex_active e' -> balances e = balances e' -> same_moment e e' -> machine_of e' = with_fees (fees_paid e' - fees_paid e) (machine_of e).
Proof.
  intros P O B (Q1 & Q2 & Q3 & Q4). unfold machine_of, with_fees, statement_of. cbn [m_book m_held m_reserved m_orders m_bid m_ask m_time m_next l_qty l_entry l_due l_cash l_paid].
  unfold wealth_of, wallet_of, position_margin_of, order_margin_of. rewrite P, O, Q1, Q2, Q3, Q4, B. replace (fees_paid e + (fees_paid e' - fees_paid e)) with (fees_paid e') by lia. reflexivity.
Qed.
Lemma memory_alike c x e e' ops : valid_config c -> 0 < x -> reachable c e -> reachable (started c x) e' ->
  ex_pos e = ex_pos e' -> ex_active e = ex_active e' -> balances e = balances e' -> same_moment e e' ->
  seen (run (started c x) e' ops) = so_far (fees_paid e' - fees_paid e) (seen (run c e ops)).
Proof. intros V V' R R' P O B T. apply memory_state; auto using start_ok. apply alike_machine; auto. Qed.
Lemma memory_flat c x e e' ops : valid_config c -> 0 < x -> c_dbg c = true -> reachable c e -> reachable (started c x) e' ->
  flat e -> flat e' -> wallet_of e = wallet_of e' -> same_moment e e' ->
  seen (run (started c x) e' ops) = so_far (fees_paid e' - fees_paid e) (seen (run c e ops)).
Proof.
  intros V V' D R R' [P O] [P' O'] W T. apply memory_alike; auto; [congruence|congruence|].
  pose proof (flat_debug c e V R D P) as M. pose proof (flat_debug _ e' (start_ok c x V V') R' D P') as M'. pose proof (empty_no_margin c e V R O) as N. pose proof (empty_no_margin _ e' (start_ok c x V V') R' O') as N'.
  unfold wallet_of, position_margin_of, order_margin_of in *. destruct (balances e), (balances e'). cbn in *. congruence.
Qed.
