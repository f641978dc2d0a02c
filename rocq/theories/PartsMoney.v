(** The parts that move money, for any arguments. *)
From Verif Require Import ProofBase OrderBook OrderMargin Tracker Currency Stats SpecParts.

Lemma balanced_iff a : balanced a <-> debit_sum a = credit_sum a.
Proof. unfold balanced, sum_of, debit_sum, credit_sum, all_accounts. cbn [fold_right get_account]. lia. Qed.
Lemma notice dbg a : (noticed dbg a -> debug_assert_accounting_equation dbg a = Panic PAccountingEquation) /\
  (~ noticed dbg a -> debug_assert_accounting_equation dbg a = Done tt).
Proof.
  unfold noticed, debug_assert_accounting_equation, debug_assert. rewrite balanced_iff. split; intros H.
  - destruct H as [-> H]. destruct (Z.eqb_spec (debit_sum a) (credit_sum a)); [contradiction | reflexivity].
  - destruct dbg; [|reflexivity]. destruct (Z.eqb_spec (debit_sum a) (credit_sum a)) as [E|E]; [reflexivity|]. exfalso. apply H. split; [reflexivity | exact E].
Qed.
Lemma posted_balanced a d c x b : posted a d c x b -> (balanced b <-> balanced a).
Proof.
  intros H. unfold balanced, sum_of, all_accounts. cbn [fold_right].
  destruct (H WALLET) as [D1 C1], (H ORDER_MARGIN) as [D2 C2], (H POSITION_MARGIN) as [D3 C3], (H FEE) as [D4 C4], (H BROKER) as [D5 C5], (H TREASURY) as [D6 C6].
  rewrite D1, D2, D3, D4, D5, D6, C1, C2, C3, C4, C5, C6. destruct d, c; cbn; lia.
Qed.
Lemma posted_noticed dbg a d c x b : posted a d c x b -> (noticed dbg b <-> noticed dbg a).
Proof. intros H. unfold noticed. rewrite (posted_balanced _ _ _ _ _ H). tauto. Qed.
Lemma transaction_exact d c x :
  (x <= 0 -> transaction_new d c x = Panic PTxAmount) /\
  (0 < x -> d = c -> transaction_new d c x = Panic PTxSameAccount) /\
  (0 < x -> d <> c -> transaction_new d c x = Done {| tx_debit := d; tx_credit := c; tx_amount := x |}).
Proof.
  unfold transaction_new. split; [|split]; intros H; destruct (Z.ltb_spec 0 x); try lia; cbn [assert bind]; [reflexivity|intros E..]; destruct (account_id_eq_dec d c); try contradiction; reflexivity.
Qed.
Lemma transfer_pays dbg acc d c x : d <> c -> pays dbg acc d c x (transfer dbg acc d c x) (fun a => a).
Proof.
  intros N. destruct (transaction_exact d c x) as (A & _ & B). unfold pays, transfer. split; [intros H; rewrite (A H); reflexivity|].
  assert (P : 0 < x -> posted acc d c x (set_account (set_account acc c (post_credit (get_account acc c) x)) d (post_debit (get_account acc d) x))).
  { intros H i. destruct acc. destruct d, c, i; try contradiction; cbn; split; lia. }
  split; intros H Q; rewrite (B H N); cbn [bind]; unfold create_margin_transfer; cbn [tx_debit tx_credit tx_amount]; cbv zeta.
  - rewrite (proj1 (notice dbg _)); [reflexivity|]. apply (posted_noticed dbg _ _ _ _ _ (P H)). exact Q.
  - rewrite (proj2 (notice dbg _)) by (rewrite (posted_noticed dbg _ _ _ _ _ (P H)); exact Q). cbn [bind]. eexists. split; [exact (P H) | reflexivity].
Qed.
Lemma pays_bind {A B} dbg acc d c x (m : outcome A) done (k : A -> outcome B) g :
  pays dbg acc d c x m done -> (forall acc', posted acc d c x acc' -> k (done acc') = Done (g acc')) -> pays dbg acc d c x (bind m k) g.
Proof.
  intros (P1 & P2 & P3) K. refine (conj _ (conj _ _)).
  - intros H. rewrite (P1 H). reflexivity.
  - intros H Q. rewrite (P2 H Q). reflexivity.
  - intros H Q. destruct (P3 H Q) as (a & H1 & ->). exists a. split; [exact H1 | exact (K a H1)].
Qed.
Lemma worth_is c q p : (p <> 0 \/ c_kind c = Linear) -> convert_from (c_kind c) (c_scale c) q p = Done (worth c q p).
Proof.
  intros H. unfold convert_from, worth. destruct (c_kind c); [reflexivity|]. unfold ddiv. destruct (Z.eqb_spec p 0) as [E|E]; [destruct H; [contradiction | discriminate] | reflexivity].
Qed.
Lemma averaged_is s p0 w0 p1 w1 : w0 + w1 <> 0 -> new_weighted_price s p0 w0 p1 w1 = Done (averaged s p0 w0 p1 w1).
Proof. intros H. unfold new_weighted_price, ddiv, dmul, averaged. destruct (Z.eqb_spec (w0 + w1) 0); [contradiction | reflexivity]. Qed.

Lemma new_exact c acc q p f :
  (q <= 0 -> inner_new c acc q p f = Panic PNewPosQty) /\
  (0 < q -> p <= 0 -> inner_new c acc q p f = Panic PNewPosPrice) /\
  (0 < q -> 0 < p -> pays (c_dbg c) acc POSITION_MARGIN WALLET (initial c q p) (inner_new c acc q p f)
     (fun a => ({| pi_qty := q; pi_entry := p; pi_fees := f |}, a))).
Proof.
  unfold inner_new. split; [|split]; intros H; destruct (Z.ltb_spec 0 q); try lia; cbn [assert bind]; [reflexivity|intros G..]; destruct (Z.ltb_spec 0 p); try lia; cbn [assert bind]; [reflexivity|].
  rewrite (worth_is c q p) by (left; lia). cbn [bind]. eapply pays_bind; [apply transfer_pays; discriminate | reflexivity].
Qed.
Lemma increase_exact c i acc q p f :
  (q <= 0 -> increase_contracts c i acc q p f = Panic PIncQty) /\
  (0 < q -> p <= 0 -> increase_contracts c i acc q p f = Panic PIncPrice) /\
  (0 < q -> 0 < p -> pi_qty i + q = 0 -> increase_contracts c i acc q p f = Panic PDivByZero) /\
  (0 < q -> 0 < p -> pi_qty i + q <> 0 -> pays (c_dbg c) acc POSITION_MARGIN WALLET (initial c q p) (increase_contracts c i acc q p f)
     (fun a => ({| pi_qty := pi_qty i + q; pi_entry := averaged (c_scale c) (pi_entry i) (pi_qty i) p q; pi_fees := pi_fees i + f |}, a))).
Proof.
  unfold increase_contracts. split; [|split; [|split]]; intros H; destruct (Z.ltb_spec 0 q); try lia; cbn [assert bind]; [reflexivity|intros G..]; destruct (Z.ltb_spec 0 p); try lia; cbn [assert bind]; [reflexivity|intros E..];
    rewrite (worth_is c q p) by (left; lia); cbn [bind].
  - unfold new_weighted_price, ddiv. destruct (Z.eqb_spec (pi_qty i + q) 0); [reflexivity | contradiction].
  - rewrite averaged_is by exact E. cbn [bind]. eapply pays_bind; [apply transfer_pays; discriminate | reflexivity].
Qed.
Lemma gained_is c entry price q : 0 < entry -> 0 < price -> 0 < c_scale c -> pnl (c_kind c) (c_scale c) entry price q = Done (gained c entry price q).
Proof.
  intros A B S. unfold pnl, gained. destruct (Z.eqb_spec q 0) as [->|N].
  - unfold worth. destruct (c_kind c); rewrite !Z.mul_0_l, !Z.quot_0_l by lia; reflexivity.
  - assert (X : convert_from (c_kind c) (c_scale c) q entry = Done (worth c q entry)) by (apply worth_is; left; lia).
    assert (Y : convert_from (c_kind c) (c_scale c) q price = Done (worth c q price)) by (apply worth_is; left; lia).
    destruct (c_kind c); rewrite X, Y; reflexivity.
Qed.
Lemma decrease_exact c i acc q p long f :
  (q <= 0 -> decrease_contracts c i acc q p long f = Panic PDecQty) /\
  (0 < q -> pi_qty i < q -> decrease_contracts c i acc q p long f = Panic PDecQtyTooLarge) /\
  (0 < q <= pi_qty i -> 0 < c_scale c -> 0 < pi_entry i -> 0 < p -> ~ noticed (c_dbg c) acc ->
     let x := initial c q (pi_entry i) in let fees := pi_fees i + f in
     (x <= 0 -> decrease_contracts c i acc q p long f = Panic (if c_dbg c then PMarginToFreeDebug else PTxAmount)) /\
     (0 < x -> exists a1 a2 a3,
        settled acc (gained c (pi_entry i) p (if long then q else - q)) a1 /\ posted a1 WALLET POSITION_MARGIN x a2 /\
        (0 < fees -> posted a2 FEE WALLET fees a3) /\ (fees <= 0 -> a3 = a2) /\
        decrease_contracts c i acc q p long f = Done ({| pi_qty := pi_qty i - q; pi_entry := pi_entry i; pi_fees := Z.min 0 fees |}, a3))).
Proof.
  unfold decrease_contracts. cbv zeta. split; [|split]; intros H; [destruct (Z.ltb_spec 0 q); [lia | reflexivity]| |].
  - intros G. destruct (Z.ltb_spec 0 q); [|lia]. cbn [assert bind]. destruct (Z.leb_spec q (pi_qty i)); [lia | reflexivity].
  - intros S E P N. destruct (Z.ltb_spec 0 q); [|lia]. cbn [assert bind]. destruct (Z.leb_spec q (pi_qty i)); [|lia]. cbn [assert bind].
    replace (debug_assert (c_dbg c) (0 <=? pi_qty i - q) PDecQtyNegDebug) with (Done tt) by (unfold debug_assert; destruct (c_dbg c); [destruct (Z.leb_spec 0 (pi_qty i - q)); [reflexivity | lia] | reflexivity]).
    cbn [bind]. rewrite gained_is by assumption. cbn [bind]. set (g := gained c (pi_entry i) p (if long then q else - q)).
    assert (A1 : exists a1, settled acc g a1 /\ ~ noticed (c_dbg c) a1 /\
      match g ?= 0 with Gt => transfer (c_dbg c) acc WALLET TREASURY g | Lt => transfer (c_dbg c) acc TREASURY WALLET (Z.abs g) | Eq => Done acc end = Done a1).
    { unfold settled. destruct (Z.compare_spec g 0) as [G|G|G].
      - exists acc. refine (conj (conj _ (conj _ (fun _ => eq_refl))) (conj N eq_refl)); lia.
      - destruct (transfer_pays (c_dbg c) acc TREASURY WALLET (Z.abs g)) as (_ & _ & T); [discriminate|]. destruct T as (a & T1 & T2); [lia | exact N|].
        exists a. rewrite T2. replace (- g) with (Z.abs g) by lia. refine (conj (conj _ (conj (fun _ => T1) _)) (conj _ eq_refl)); [lia..|]. rewrite (posted_noticed _ _ _ _ _ _ T1). exact N.
      - destruct (transfer_pays (c_dbg c) acc WALLET TREASURY g) as (_ & _ & T); [discriminate|]. destruct T as (a & T1 & T2); [lia | exact N|].
        exists a. rewrite T2. refine (conj (conj (fun _ => T1) (conj _ _)) (conj _ eq_refl)); [lia..|]. rewrite (posted_noticed _ _ _ _ _ _ T1). exact N. }
    destruct A1 as (a1 & S1 & N1 & ->). cbn [bind]. rewrite (worth_is c q (pi_entry i)) by (left; lia). cbn [bind].
    change (dmul (c_scale c) (worth c q (pi_entry i)) (ct_imr (c_spec c))) with (initial c q (pi_entry i)). set (x := initial c q (pi_entry i)).
    destruct (transfer_pays (c_dbg c) a1 WALLET POSITION_MARGIN x) as (T1 & _ & T3); [discriminate|]. split; intros X.
    + unfold debug_assert. destruct (c_dbg c); [destruct (Z.ltb_spec 0 x); [lia | reflexivity]|]. cbn [bind]. rewrite (T1 X). reflexivity.
    + replace (debug_assert (c_dbg c) (0 <? x) PMarginToFreeDebug) with (Done tt) by (unfold debug_assert; destruct (c_dbg c); [destruct (Z.ltb_spec 0 x); [reflexivity | lia] | reflexivity]).
      destruct (T3 X N1) as (a2 & P2 & E2). cbn [bind]. rewrite E2. cbn [bind].
      assert (N2 : ~ noticed (c_dbg c) a2) by (rewrite (posted_noticed _ _ _ _ _ _ P2); exact N1).
      destruct (Z.ltb_spec 0 (pi_fees i + f)) as [K|K].
      * destruct (transfer_pays (c_dbg c) a2 FEE WALLET (pi_fees i + f)) as (_ & _ & T); [discriminate|]. destruct (T K N2) as (a3 & P3 & E3). rewrite E3. cbn [bind].
        exists a1, a2, a3. refine (conj S1 (conj P2 (conj (fun _ => P3) (conj _ _)))); [lia|]. rewrite Z.min_l by lia. reflexivity.
      * exists a1, a2, a2. refine (conj S1 (conj P2 (conj _ (conj (fun _ => eq_refl) _)))); [lia|]. rewrite Z.min_r by lia. reflexivity.
Qed.

(** ** Orders *)
Lemma remaining_exact o q :
  (q <= 0 -> set_remaining_quantity o q = Panic PSetRemaining) /\
  (0 < q -> set_remaining_quantity o q = Done {| nl_uid := nl_uid o; nl_side := nl_side o; nl_price := nl_price o; nl_rem := q |}).
Proof. unfold set_remaining_quantity. split; intros H; destruct (Z.ltb_spec 0 q); try lia; reflexivity. Qed.
Lemma total_exact o : let all := lo_rem o + lo_filled_qty o in
  (all <= 0 -> lo_total_quantity o = Panic PTotalQuantity) /\ (0 < all -> lo_total_quantity o = Done all).
Proof.
  cbv zeta. unfold lo_total_quantity, lo_filled_qty. destruct (lo_filled o); rewrite ?Z.add_0_r; split; intros H;
    match goal with |- context [0 <? ?x] => destruct (Z.ltb_spec 0 x); try lia; reflexivity end.
Qed.
Lemma fill_exact s o q ts :
  (lo_rem o < q -> order_fill s o q ts = Panic PFillTooLarge) /\
  (q <= lo_rem o -> q <= 0 -> order_fill s o q ts = Panic PFillNonPos) /\
  (0 < q <= lo_rem o ->
     (lo_filled o = Unfilled -> order_fill s o q ts =
        Done (fill_leaves o q (FilledQ q (lo_price o)), if q =? lo_rem o then Some (fill_report o ts q) else None)) /\
     (forall cum avg, lo_filled o = FilledQ cum avg ->
        (cum + q = 0 -> order_fill s o q ts = Panic PDivByZero) /\
        (cum + q <> 0 -> order_fill s o q ts =
           Done (fill_leaves o q (FilledQ (cum + q) (averaged s avg cum (lo_price o) q)), if q =? lo_rem o then Some (fill_report o ts (cum + q)) else None)))).
Proof.
  unfold order_fill. split; [|split]; intros H.
  - destruct (Z.leb_spec q (lo_rem o)); [lia | reflexivity].
  - intros G. destruct (Z.leb_spec q (lo_rem o)); [|lia]. cbn [assert bind]. destruct (Z.ltb_spec 0 q); [lia | reflexivity].
  - destruct (Z.leb_spec q (lo_rem o)); [|lia]. cbn [assert bind]. destruct (Z.ltb_spec 0 q); [|lia]. cbn [assert bind]. cbv zeta. split.
    + intros ->. destruct (q =? lo_rem o); reflexivity.
    + intros cum avg ->. split; intros E.
      * unfold new_weighted_price, ddiv. destruct (Z.eqb_spec (cum + q) 0); [reflexivity | contradiction].
      * rewrite averaged_is by exact E. cbn [bind]. destruct (Z.eqb_spec q (lo_rem o)), (Z.eqb_spec (lo_rem o - q) 0); try lia; reflexivity.
Qed.

(** ** The tracker *)
Lemma tracker_exact start t c sd p q :
  (start <= 0 -> tracker_new start = Panic PTrackerStart) /\ (0 < start -> exists t, tracker_new start = Done t) /\
  (q <= 0 -> log_trade c t sd p q = Panic PLogTradeQty) /\
  (0 < q -> 0 < p -> exists t', log_trade c t sd p q = Done t' /\
     tk_buy_volume t' = tk_buy_volume t + (match sd with Buy => worth c q p | Sell => 0 end) /\
     tk_sell_volume t' = tk_sell_volume t + (match sd with Buy => 0 | Sell => worth c q p end)).
Proof.
  unfold tracker_new, log_trade. split; [|split; [|split]]; intros H.
  - destruct (Z.ltb_spec 0 start); [lia | reflexivity].
  - destruct (Z.ltb_spec 0 start); [eexists; reflexivity | lia].
  - destruct (Z.ltb_spec 0 q); [lia | reflexivity].
  - intros G. destruct (Z.ltb_spec 0 q); [|lia]. cbn [assert bind]. rewrite worth_is by (left; lia). cbn [bind]. eexists. split; [reflexivity|]. destruct sd; cbn; lia.
Qed.
Lemma ratio_exact c t : let b := tk_buy_volume t in let v := tk_sell_volume t in
  (b < 0 \/ v < 0 -> buy_volume_ratio c t = Panic PVolumeRatio) /\
  (b = 0 -> v = 0 -> buy_volume_ratio c t = Done None) /\
  (0 <= b -> 0 <= v -> 0 < b + v -> buy_volume_ratio c t = Done (Some (Z.quot (b * c_scale c) (b + v)))).
Proof.
  cbv zeta. unfold buy_volume_ratio, ddiv. split; [|split]; intros H.
  - destruct (Z.leb_spec 0 (tk_buy_volume t)); cbn [assert bind]; [|reflexivity]. destruct (Z.leb_spec 0 (tk_sell_volume t)); [lia | reflexivity].
  - intros G. rewrite H, G. reflexivity.
  - intros G L. destruct (Z.leb_spec 0 (tk_buy_volume t)); [|lia]. cbn [assert bind]. destruct (Z.leb_spec 0 (tk_sell_volume t)); [|lia]. cbn [assert bind].
    destruct (Z.eqb_spec (tk_buy_volume t + tk_sell_volume t) 0); [lia | reflexivity].
Qed.
