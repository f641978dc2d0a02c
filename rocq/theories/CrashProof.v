(** The exchange panics exactly where the machine does. *)
From Coq Require Import Permutation.
From Verif Require Import ProofBase BookLemmas StepLemmas FillLemmas OpLemmas Inv Spec SpecBook SpecRules SpecMargin SpecConfig SpecMarket SpecPanic SpecFlow
  SpecEntry SpecMachine SpecCrash LedgerProof FeeProof FilterProof MarginProof BookProof OrderProof CoreProof SoundProof PanicProof PanicCor MarketProof LiqProof
  FlowProof FlowCor HealthProof ViewProof MachineProof.

(** An outcome panics as [x] says, or at an assertion that never fires in a reachable state. *)
Definition fits {A} (m : outcome A) (x : option panic_site) : Prop :=
  match m with Done _ => x = None | Panic w => In w dead \/ x = Some w end.

Lemma fits_done {A} (a : A) : fits (Done a) None.
Proof. reflexivity. Qed.
Lemma fits_bind {A B} (m : outcome A) (k : A -> outcome B) x y :
  fits m x -> (forall a, m = Done a -> fits (k a) (first_of y)) -> fits (bind m k) (first_of (x :: y)).
Proof.
  intros H1 H2. destruct m as [a|w]; cbn in *; [subst x; apply H2; reflexivity|].
  destruct H1 as [H1| ->]; [left; exact H1 | right; reflexivity].
Qed.
Lemma first_single x : first_of [x] = x.
Proof. destruct x; reflexivity. Qed.
Lemma first_snoc_none x : first_of [x; None] = x.
Proof. destruct x; reflexivity. Qed.
Lemma fits_last {A B} (m : outcome A) (k : A -> outcome B) x :
  fits m x -> (forall a, m = Done a -> exists b, k a = Done b) -> fits (bind m k) x.
Proof.
  intros H1 H2. destruct m as [a|w]; cbn in *; [subst x; destruct (H2 a eq_refl) as [b ->]; reflexivity | exact H1].
Qed.
(** A step that can only stop at a dead assertion. *)
Lemma fits_skip {A B} (m : outcome A) (k : A -> outcome B) x :
  fits m None -> (forall a, m = Done a -> fits (k a) x) -> fits (bind m k) x.
Proof.
  intros H1 H2. destruct m as [a|w]; cbn in *; [apply H2; reflexivity|]. destruct H1 as [H1|H1]; [left; exact H1 | discriminate].
Qed.
Lemma fits_known {A B} (m : outcome A) (k : A -> outcome B) a x :
  m = Done a -> fits (k a) x -> fits (bind m k) x.
Proof. intros -> H. exact H. Qed.

Ltac dead := cbn; tauto.
Lemma fits_assert_dead b w : In w dead -> fits (assert b w) None.
Proof. intros H. unfold assert. destruct b; [reflexivity | left; exact H]. Qed.
Lemma fits_debug_dead dbg b w : In w dead -> fits (debug_assert dbg b w) None.
Proof. intros H. unfold debug_assert. destruct dbg; [apply fits_assert_dead, H | reflexivity]. Qed.
Lemma fits_assert b b' w : b = b' -> fits (assert b w) (demand b' w).
Proof. intros <-. unfold assert, demand. destruct b; [reflexivity | right; reflexivity]. Qed.
Lemma fits_debug c b b' w : b = b' -> fits (debug_assert (c_dbg c) b w) (in_debug c (demand b' w)).
Proof. intros <-. unfold debug_assert, in_debug. destruct (c_dbg c); [apply fits_assert; reflexivity | reflexivity]. Qed.
Lemma fits_debug_m c m b w : m = Done b -> fits (debug_assert_m (c_dbg c) m w) (in_debug c (demand b w)).
Proof. intros ->. unfold debug_assert_m, in_debug. destruct (c_dbg c); cbn; [apply fits_assert; reflexivity | reflexivity]. Qed.
Lemma fits_transfer dbg acc dd cc amt : fits (transfer dbg acc dd cc amt) (demand (0 <? amt) PTxAmount).
Proof.
  unfold transfer, transaction_new, assert, demand. destruct (0 <? amt); cbn [bind]; [|right; reflexivity].
  destruct (account_id_eq_dec dd cc); cbn [bind]; [left; dead|].
  unfold create_margin_transfer, debug_assert_accounting_equation, debug_assert, assert. cbn [bind].
  destruct dbg; cbn [bind]; [|reflexivity]. destruct (_ =? _); cbn [bind]; [reflexivity | left; dead].
Qed.
Lemma fits_transfer_pos dbg acc dd cc amt : 0 < amt -> fits (transfer dbg acc dd cc amt) None.
Proof. intros H. pose proof (fits_transfer dbg acc dd cc amt) as F. unfold demand in F. destruct (Z.ltb_spec 0 amt); [exact F | lia]. Qed.

Lemma convert_ok c q p : divides c p = true -> convert_from (c_kind c) (c_scale c) q p = Done (value (c_kind c) (c_scale c) q p).
Proof.
  unfold divides, convert_from, value, ddiv, dmul. destruct (c_kind c); [reflexivity|]. destruct (p =? 0); [discriminate | reflexivity].
Qed.
Lemma fits_convert c q p : fits (convert_from (c_kind c) (c_scale c) q p) (demand (divides c p) PDivByZero).
Proof.
  unfold divides, convert_from, ddiv, demand. destruct (c_kind c); [reflexivity|]. destruct (p =? 0); [right; reflexivity | reflexivity].
Qed.
Lemma divides_pos c p : 0 < p -> divides c p = true.
Proof. intros H. unfold divides. destruct (c_kind c); [reflexivity|]. destruct (Z.eqb_spec p 0); [lia | reflexivity]. Qed.
Lemma margin_value c q p : dmul (c_scale c) (value (c_kind c) (c_scale c) q p) (ct_imr (c_spec c)) = margin_at c q p.
Proof. reflexivity. Qed.

(** ** Positions *)
Lemma fits_new c acc q p f : 0 < p -> fits (inner_new c acc q p f) (demand (0 <? margin_at c q p) PTxAmount).
Proof.
  intros Hp. unfold inner_new. cbv zeta. apply fits_skip; [apply fits_assert_dead; dead|]. intros _ _.
  apply fits_skip; [apply fits_assert_dead; dead|]. intros _ _.
  eapply fits_known; [apply convert_ok, divides_pos, Hp|]. rewrite margin_value.
  apply fits_last; [apply fits_transfer | eauto].
Qed.
Lemma fits_increase c i acc q p f :
  0 < q -> 0 < p -> 0 < pi_qty i -> fits (increase_contracts c i acc q p f) (demand (0 <? margin_at c q p) PTxAmount).
Proof.
  intros Hq Hp Hi. unfold increase_contracts. cbv zeta. apply fits_skip; [apply fits_assert_dead; dead|]. intros _ _.
  apply fits_skip; [apply fits_assert_dead; dead|]. intros _ _.
  eapply fits_known; [apply convert_ok, divides_pos, Hp|]. rewrite margin_value.
  eapply fits_known; [apply new_weighted_price_ok; lia|].
  apply fits_last; [apply fits_transfer | eauto].
Qed.
Lemma fits_pnl c a b q : q <> 0 -> 0 < b -> fits (pnl (c_kind c) (c_scale c) a b q) (demand (divides c a) PDivByZero).
Proof.
  intros Hq Hb. unfold pnl. destruct (Z.eqb_spec q 0); [contradiction|].
  pose proof (fits_convert c q a) as F. pose proof (convert_ok c q b (divides_pos c b Hb)) as E. unfold divides in *. destruct (c_kind c).
  - cbn. reflexivity.
  - apply fits_last; [exact F|]. intros v _. rewrite E. cbn. eauto.
Qed.
Definition release_crash (c : config) (q entry : Z) : list (option panic_site) :=
  [ demand (divides c entry) PDivByZero; in_debug c (demand (0 <? margin_at c q entry) PMarginToFreeDebug);
    demand (0 <? margin_at c q entry) PTxAmount ].
Lemma fits_decrease c i acc q p long f :
  0 < q -> 0 < p -> fits (decrease_contracts c i acc q p long f) (first_of (release_crash c q (pi_entry i))).
Proof.
  intros Hq Hp. unfold decrease_contracts, release_crash. cbv zeta. apply fits_skip; [apply fits_assert_dead; dead|]. intros _ _.
  apply fits_skip; [apply fits_assert_dead; dead|]. intros _ _. apply fits_skip; [apply fits_debug_dead; dead|]. intros _ _.
  assert (Hd : divides c (pi_entry i) = true \/ divides c (pi_entry i) = false) by (destruct (divides _ _); auto).
  apply fits_bind; [apply fits_pnl; [destruct long; lia | exact Hp]|]. intros g Hg.
  apply fits_skip.
  { destruct (Z.compare_spec g 0); [reflexivity | apply fits_transfer_pos; lia | apply fits_transfer_pos; lia]. }
  intros a1 _. destruct Hd as [Hd|Hd].
  2:{ exfalso. pose proof (fits_pnl c (pi_entry i) p (if long then q else - q)) as F. rewrite Hg, Hd in F. cbn in F.
      assert (E : Some PDivByZero = None) by (apply F; [destruct long; lia | exact Hp]). discriminate. }
  eapply fits_known; [apply convert_ok, Hd|]. rewrite margin_value.
  apply fits_bind; [apply fits_debug; reflexivity|]. intros _ _. rewrite first_single.
  match goal with |- fits (bind ?m ?k) _ => change (fits (bind m k) (demand (0 <? margin_at c q (pi_entry i)) PTxAmount)) end.
  rewrite <- first_single. apply fits_bind; [apply fits_transfer|]. intros a2 _. cbn [first_of].
  destruct (Z.ltb_spec 0 (pi_fees i + f)); [|reflexivity]. apply fits_skip; [apply fits_transfer_pos; assumption|]. intros; reflexivity.
Qed.

Lemma first_app l r : first_of (l ++ r) = first_of [first_of l; first_of r].
Proof. induction l as [|[w|] l IH]; cbn; [destruct (first_of r); reflexivity | reflexivity | exact IH]. Qed.

(** The closed part leaves the margin it released. *)
Lemma decrease_margin c i acc q p long f j acc' :
  0 < q -> decrease_contracts c i acc q p long f = Done (j, acc') ->
  bal acc' POSITION_MARGIN = bal acc POSITION_MARGIN - margin_at c q (pi_entry i) /\ pi_qty j = pi_qty i - q.
Proof.
  intros Hq H. apply decrease_spec in H as (_ & _ & -> & ->). rewrite bal_settle. cbn [pi_qty].
  change (margin_of c q (pi_entry i)) with (margin_at c q (pi_entry i)). lia.
Qed.

Lemma fits_reduce c i acc q p long f (mk mk' : position_inner -> position) x :
  0 < q -> 0 < p -> 0 < pi_qty i ->
  x = first_of [ demand (divides c (pi_entry i)) PDivByZero;
      in_debug c (demand (0 <? margin_at c (Z.min q (pi_qty i)) (pi_entry i)) PMarginToFreeDebug);
      demand (0 <? margin_at c (Z.min q (pi_qty i)) (pi_entry i)) PTxAmount;
      match q ?= pi_qty i with
      | Lt => None
      | Eq => in_debug c (demand (bal acc POSITION_MARGIN =? margin_at c (pi_qty i) (pi_entry i)) PCloseMarginDebug)
      | Gt => first_of [ demand (bal acc POSITION_MARGIN =? margin_at c (pi_qty i) (pi_entry i)) PFlipMargin;
                         demand (0 <? margin_at c (q - pi_qty i) p) PTxAmount ]
      end ] ->
  fits
    (match q ?= pi_qty i with
     | Lt => '(i0, acc1) <- decrease_contracts c i acc q p long f;; Done (mk i0, acc1)
     | Eq => '(i0, acc1) <- decrease_contracts c i acc q p long f;;
             _ <- debug_assert (c_dbg c) (margin_balance_of acc1 POSITION_MARGIN =? 0) PCloseMarginDebug;; Done (Neutral, acc1)
     | Gt => '(i0, acc1) <- decrease_contracts c i acc (pi_qty i) p long f;;
             _ <- assert (pi_qty i0 =? 0) PFlipQty;;
             _ <- assert (margin_balance_of acc1 POSITION_MARGIN =? 0) PFlipMargin;;
             '(j, acc2) <- inner_new c acc1 (q - pi_qty i) p 0;; Done (mk' j, acc2)
     end) x.
Proof.
  intros Hq Hp Hi ->.
  match goal with |- fits _ (first_of [?a; ?b; ?d; ?e]) =>
    change (first_of [a; b; d; e]) with (first_of ([a; b; d] ++ [e])); rewrite (first_app [a; b; d] [e]), (first_single e) end.
  destruct (Z.compare_spec q (pi_qty i)) as [He|He|He].
  - rewrite Z.min_r by lia. subst q. apply fits_bind; [apply fits_decrease; assumption|]. intros [j a1] Hd. rewrite first_single.
    apply decrease_margin in Hd as [Hm _]; [|assumption].
    apply fits_last; [|eauto]. apply fits_debug. unfold bal in *. lia.
  - rewrite Z.min_l by lia. rewrite first_snoc_none. apply fits_last; [apply fits_decrease; assumption|]. intros [j a1] _. eauto.
  - rewrite Z.min_r by lia. apply fits_bind; [apply fits_decrease; assumption|]. intros [j a1] Hd. rewrite first_single.
    apply decrease_margin in Hd as [Hm _]; [|assumption].
    apply fits_skip; [apply fits_assert_dead; dead|]. intros _ _.
    apply fits_bind; [apply fits_assert; unfold bal in *; lia|]. intros _ _. rewrite first_single.
    apply fits_last; [apply fits_new; assumption|]. intros [j2 a2] _. eauto.
Qed.

Lemma fits_change c pos acc q p sd f m rt :
  0 < q -> 0 < p -> pos_ok pos ->
  m_pos m = position_quantity pos -> l_entry (m_book m) = position_entry_price pos -> m_held m = bal acc POSITION_MARGIN ->
  fits (change_position c pos acc q p sd f) (fill_crash c m {| f_side := sd; f_qty := q; f_price := p; f_rate := rt |}).
Proof.
  intros Hq Hp Hok E1 E2 E3. unfold change_position, fill_crash. cbv zeta. rewrite E1, E2, E3. cbn [f_qty f_price signed_qty f_side].
  apply fits_skip; [apply fits_debug_dead; dead|]. intros _ _.
  destruct pos as [|i|i]; cbn [position_quantity position_entry_price pos_ok] in *.
  - cbn [Z.eqb orb]. apply fits_skip; [apply fits_debug_dead; dead|]. intros _ _.
    apply fits_last; [apply fits_new; assumption|]. intros [j a1] _. destruct sd; eauto.
  - destruct (Z.eqb_spec (pi_qty i) 0); [lia|]. cbn [orb]. rewrite Z.abs_eq by lia. destruct sd; cbn [signed_qty f_side f_qty].
    + replace (Z.sgn (pi_qty i) =? Z.sgn q) with true by lia.
      apply fits_last; [apply fits_increase; assumption|]. intros [j a1] _. eauto.
    + replace (Z.sgn (pi_qty i) =? Z.sgn (- q)) with false by lia. apply (fits_reduce c i acc q p true f Long Short); auto.
  - destruct (Z.eqb_spec (- pi_qty i) 0); [lia|]. cbn [orb]. rewrite Z.abs_opp, Z.abs_eq by lia. destruct sd; cbn [signed_qty f_side f_qty].
    + replace (Z.sgn (- pi_qty i) =? Z.sgn q) with false by lia. apply (fits_reduce c i acc q p false f Short Long); auto.
    + replace (Z.sgn (- pi_qty i) =? Z.sgn (- q)) with true by lia.
      apply fits_last; [apply fits_increase; assumption|]. intros [j a1] _. eauto.
Qed.

Lemma log_trade_ok c t sd p q : 0 < p -> 0 < q -> exists t', log_trade c t sd p q = Done t'.
Proof.
  intros Hp Hq. destruct (log_trade c t sd p q) eqn:E; [eauto|]. exfalso. exact (safe_log_trade [] c t sd p q Hp Hq _ E).
Qed.

(** ** Market orders *)
Lemma fits_settle c e f :
  0 < fm_qty f -> fm_avg f = quote_price (ex_ms e) (fm_side f) -> pos_ok (ex_pos e) ->
  fits (settle_filled_market_order c e f) (take_crash c (view e) (fm_side f) (fm_qty f)).
Proof.
  intros Hq Hp Hok. unfold settle_filled_market_order, take_crash. cbv zeta. apply fits_skip; [apply fits_assert_dead; dead|]. intros _ _.
  assert (E : m_price (view e) (fm_side f) = fm_avg f) by (rewrite Hp; destruct (fm_side f); reflexivity).
  apply fits_bind; [apply fits_assert; rewrite E; reflexivity|]. intros ? Ha. apply assert_done in Ha. rewrite first_single.
  eapply fits_known; [apply convert_ok, divides_pos; lia|].
  apply fits_last.
  - unfold taken. rewrite E. apply fits_change; try assumption; try lia; reflexivity.
  - intros [pos acc] _. destruct (log_trade_ok c (log_market_order_fill (ex_trk e)) (fm_side f) (fm_avg f) (fm_qty f)) as [t ->]; [lia | lia|]. cbn. eauto.
Qed.

Definition needs_price (c : config) (m : machine) (sd : side) (q : Z) : bool :=
  negb (m_pos m =? 0) && negb (Z.sgn (m_pos m) =? Z.sgn (signed_qty (taken c m sd q))) && (q <=? Z.abs (m_pos m)).

Lemma fits_risk c e sd q :
  pos_ok (ex_pos e) -> 0 < q ->
  fits (check_market_order c (ex_pos e) (bal (ex_acc e) POSITION_MARGIN) sd q (quote_price (ex_ms e) sd) (bal (ex_acc e) WALLET))
    (demand (needs_price c (view e) sd q || divides c (m_price (view e) sd)) PDivByZero).
Proof.
  intros Hok Hq. unfold needs_price. change (m_pos (view e)) with (position_quantity (ex_pos e)).
  replace (m_price (view e) sd) with (quote_price (ex_ms e) sd) by (destruct sd; reflexivity).
  set (p := quote_price (ex_ms e) sd). unfold taken. cbn [signed_qty f_side f_qty].
  assert (O : fits (check_market_open c q p (bal (ex_acc e) WALLET)) (demand (divides c p) PDivByZero)).
  { unfold check_market_open. cbv zeta. apply fits_last; [apply fits_convert | eauto]. }
  assert (Rd : forall i m w, fits (check_market_reduce c i m q p w) (demand ((q <=? pi_qty i) || divides c p) PDivByZero)).
  { intros i m w. unfold check_market_reduce. destruct (q <=? pi_qty i); [reflexivity|]. cbn [orb]. apply fits_last; [apply fits_convert | eauto]. }
  unfold check_market_order. destruct (ex_pos e) as [|i|i]; cbn [position_quantity pos_ok] in *.
  - destruct sd; exact O.
  - destruct (Z.eqb_spec (pi_qty i) 0); [lia|]. cbn [negb andb]. rewrite Z.abs_eq by lia. destruct sd; cbn [signed_qty f_side f_qty].
    + replace (Z.sgn (pi_qty i) =? Z.sgn q) with true by lia. exact O.
    + replace (Z.sgn (pi_qty i) =? Z.sgn (- q)) with false by lia. apply Rd.
  - destruct (Z.eqb_spec (- pi_qty i) 0); [lia|]. cbn [negb andb]. rewrite Z.abs_opp, Z.abs_eq by lia. destruct sd; cbn [signed_qty f_side f_qty].
    + replace (Z.sgn (- pi_qty i) =? Z.sgn q) with false by lia. apply Rd.
    + replace (Z.sgn (- pi_qty i) =? Z.sgn (- q)) with true by lia. exact O.
Qed.

Lemma fits_map_out {S E A B} (f : A -> B) (m : outcome (S * result E A)) x : fits m x -> fits (map_out f m) x.
Proof. intros H. unfold map_out. apply fits_last; [exact H|]. intros [s r] _. eauto. Qed.

Lemma fits_market c e o :
  valid_config c -> Inv c e -> 0 < nm_qty o -> fits (submit_market_order c e o) (market_crash c (view e) (nm_side o) (nm_qty o)).
Proof.
  intros V I Hq. unfold submit_market_order, market_crash. cbv zeta. destruct (Z.leb_spec (nm_qty o) 0); [lia|].
  destruct (validate_qty_done c (nm_qty o) V) as [v Hv]. rewrite Hv. cbn [bind].
  rewrite (quantity_view _ _ _ (vc_qtick _ V) Hq Hv). destruct v as [u|err]; [|reflexivity].
  fold (needs_price c (view e) (nm_side o) (nm_qty o)).
  match goal with |- fits (bind ?mm ?k) _ =>
    change mm with (check_market_order c (ex_pos e) (bal (ex_acc e) POSITION_MARGIN) (nm_side o) (nm_qty o) (quote_price (ex_ms e) (nm_side o)) (bal (ex_acc e) WALLET)) end.
  apply fits_bind; [apply fits_risk; [apply (inv_pos _ _ I) | exact Hq]|]. intros r Hr. rewrite first_single.
  apply funded_view in Hr; [|apply (inv_pos _ _ I) | exact Hq]. subst r. destruct (m_funded c (view e) (nm_side o) (nm_qty o)); [|reflexivity].
  apply fits_last; [|eauto].
  set (e2 := set_next_id _ _).
  replace (take_crash c (view e) (nm_side o) (nm_qty o)) with (take_crash c (view e2) (nm_side o) (nm_qty o)) by reflexivity.
  apply (fits_settle c e2 (market_into_filled o _ _ _ _)); [exact Hq | | apply (inv_pos _ _ I)].
  cbn [market_into_filled fm_avg fm_side]. destruct (nm_side o); reflexivity.
Qed.

Lemma fits_liquidate c e :
  valid_config c -> Inv c e -> ex_pos e <> Neutral ->
  fits (liquidate c e)
    (first_of [ demand (match quantity_fault (ct_qf (c_spec c)) (Z.abs (m_pos (view e))) with None => true | Some _ => false end) PLiquidateSubmit;
                take_crash c (view e) (if 0 <? m_pos (view e) then Sell else Buy) (Z.abs (m_pos (view e))) ]).
Proof.
  intros V I Hn. pose proof (inv_pos _ _ I) as Hok.
  assert (K : forall o, 0 < nm_qty o -> (needs_price c (view e) (nm_side o) (nm_qty o) = true) ->
    fits ('(e1, r) <- submit_market_order c e o ;; match r with Ok _ => Done e1 | Err _ => Panic PLiquidateSubmit end)
      (first_of [ demand (match quantity_fault (ct_qf (c_spec c)) (nm_qty o) with None => true | Some _ => false end) PLiquidateSubmit;
                  take_crash c (view e) (nm_side o) (nm_qty o) ])).
  { intros o Hq Hc. pose proof (fits_market c e o V I Hq) as F. unfold market_crash in F. cbv zeta in F.
    destruct (Z.leb_spec (nm_qty o) 0); [lia|].
    fold (needs_price c (view e) (nm_side o) (nm_qty o)) in F. rewrite Hc in F. cbn [orb demand first_of] in F.
    assert (Hf : m_funded c (view e) (nm_side o) (nm_qty o) = true).
    { unfold needs_price in Hc. unfold m_funded. apply andb_true_iff in Hc as [Hc Hc3]. apply andb_true_iff in Hc as [Hc1 Hc2].
      apply negb_true_iff in Hc1, Hc2. rewrite Hc1, Hc2, Hc3. reflexivity. }
    rewrite Hf in F.
    destruct (validate_qty_done c (nm_qty o) V) as [v Hv]. pose proof (quantity_view _ _ _ (vc_qtick _ V) Hq Hv) as Eq.
    destruct (submit_market_order c e o) as [[e1 r]|w] eqn:Es; cbn [bind].
    - apply submit_market_spec in Es. destruct r as [f|err].
      + destruct Es as [_ M]. pose proof (me_valid _ _ _ _ M) as Hv'. rewrite Hv in Hv'. injection Hv' as ->.
        rewrite Eq in *. exact F.
      + destruct Es as (_ & _ & [(oe & -> & Hv' & _)|(re & -> & _ & Hv' & Hc')]).
        * rewrite Hv in Hv'. injection Hv' as ->. rewrite Eq. right. reflexivity.
        * apply funded_view in Hc'; [|exact Hok | exact Hq]. rewrite Hf in Hc'. discriminate.
    - rewrite Eq in *. destruct v as [u|err].
      + destruct F as [F|F]; [left; exact F|]. right. exact F.
      + destruct F as [F|F]; [left; exact F | discriminate]. }
  unfold liquidate, needs_price in *. change (m_pos (view e)) with (position_quantity (ex_pos e)) in *.
  destruct (ex_pos e) as [|i|i]; [contradiction| |]; cbn [position_quantity pos_ok] in *; unfold market_new; destruct (Z.leb_spec (pi_qty i) 0); try lia; cbn [bind].
  - rewrite Z.abs_eq in * by lia. destruct (Z.ltb_spec 0 (pi_qty i)); [|lia].
    apply (K {| nm_uid := 0; nm_side := Sell; nm_qty := pi_qty i |}); [exact Hok|]. cbn [taken signed_qty f_side f_qty nm_side nm_qty].
    destruct (Z.eqb_spec (pi_qty i) 0); [lia|]. replace (Z.sgn (pi_qty i) =? Z.sgn (- pi_qty i)) with false by lia. cbn. lia.
  - rewrite Z.abs_opp, Z.abs_eq in * by lia. destruct (Z.ltb_spec 0 (- pi_qty i)); [lia|].
    apply (K {| nm_uid := 0; nm_side := Buy; nm_qty := pi_qty i |}); [exact Hok|]. cbn [taken signed_qty f_side f_qty nm_side nm_qty].
    destruct (Z.eqb_spec (- pi_qty i) 0); [lia|]. replace (Z.sgn (- pi_qty i) =? Z.sgn (pi_qty i)) with false by lia. cbn. lia.
Qed.

(** ** Limit orders *)
Lemma req_need c b pos : req c b pos = need c b (position_quantity pos).
Proof. unfold req, need. rewrite !ranking_sorted. reflexivity. Qed.

Lemma fits_append c e o :
  valid_config c -> Inv c e -> 0 < lo_rem o -> 0 < lo_price o -> ~ In (lo_id o) (ids (ex_active e)) ->
  fits (append_limit_order c e o)
    (if c_max c <=? Z.of_nat (length (ex_om e)) then None
     else let n := need c (ex_om e ++ [o]) (position_quantity (ex_pos e)) in
          demand ((n =? bal (ex_acc e) ORDER_MARGIN) || (0 <=? bal (ex_acc e) WALLET - Z.abs (n - bal (ex_acc e) ORDER_MARGIN))) PWalletNegative).
Proof.
  intros V I Hr Hp Hid. pose proof (inv_good _ _ I) as Hg. pose proof (inv_books _ _ I) as HB.
  pose proof (good_snoc _ _ Hg Hr Hp) as Hg'. unfold append_limit_order, om_update. rewrite HB.
  destruct (Z.ltb_spec 0 (lo_rem o)); [|lia]. cbn [assert bind]. rewrite !book_insert_new by assumption.
  destruct (c_max c <=? Z.of_nat (length (ex_active e))) eqn:Ec; cbn [bind]; [reflexivity|].
  cbn [set_om ex_active]. rewrite book_insert_new by assumption.
  destruct (Z.leb_spec active_capacity (Z.of_nat (length (ex_active e)))).
  { pose proof (vc_max _ V). unfold active_capacity in *. lia. }
  unfold computed_order_margin. cbn [set_active set_om ex_om ex_pos ex_acc ex_active].
  rewrite om_eq by (assumption || apply (inv_pos _ _ I)). cbn [bind]. fold (bal (ex_acc e) ORDER_MARGIN). rewrite req_need.
  set (n := need c (ex_active e ++ [o]) (position_quantity (ex_pos e))). set (r := bal (ex_acc e) ORDER_MARGIN).
  assert (T : forall amt, 0 < amt -> amt = Z.abs (n - r) -> fits
    (acc <- transfer (c_dbg c) (ex_acc e) ORDER_MARGIN WALLET amt;;
     (let e3 := set_acc (set_active (set_om e (ex_active e ++ [o])) (ex_active e ++ [o])) acc in
      _ <- assert (orders_eqb (ex_om e3) (ex_active e3)) PAppendBooks;;
      _ <- assert match ex_active e3 with [] => margin_balance_of (ex_acc e3) ORDER_MARGIN =? 0 | _ :: _ => true end PAppendEmptyMargin;;
      _ <- assert_user_wallet_balance (ex_acc e3);; Done (e3, @Ok error unit tt)))
    (demand (0 <=? bal (ex_acc e) WALLET - Z.abs (n - r)) PWalletNegative)).
  { intros amt Ha Hn. apply fits_skip; [apply fits_transfer_pos; exact Ha|]. intros acc Hacc. cbv zeta.
    apply transfer_done in Hacc as (_ & _ & ->).
    apply fits_skip; [apply fits_assert_dead; dead|]. intros _ _. apply fits_skip; [apply fits_assert_dead; dead|]. intros _ _.
    apply fits_last; [|eauto]. apply fits_assert. cbn [set_acc ex_acc].
    change (margin_balance_of (transfer_pure (ex_acc e) ORDER_MARGIN WALLET amt) WALLET) with (bal (transfer_pure (ex_acc e) ORDER_MARGIN WALLET amt) WALLET).
    rewrite bal_transfer by discriminate. unfold delta. cbn -[bal Z.abs Z.leb]. rewrite <- Hn. f_equal. lia. }
  destruct (Z.compare_spec n r) as [E|E|E].
  - subst. rewrite E, Z.eqb_refl. reflexivity.
  - destruct (Z.eqb_spec n r); [lia|]. cbn [orb]. apply T; lia.
  - destruct (Z.eqb_spec n r); [lia|]. cbn [orb]. apply T; lia.
Qed.

Lemma fits_submit c e sd p q uid :
  valid_config c -> Inv c e -> 0 < p -> 0 < q ->
  fits (submit_limit_order c e {| nl_uid := uid; nl_side := sd; nl_price := p; nl_rem := q |}) (submit_crash c (view e) sd p q uid).
Proof.
  intros V I Hp Hq. pose proof (inv_good _ _ I) as Hg. pose proof (inv_books _ _ I) as HB. unfold submit_limit_order, submit_crash, m_submit.
  cbn [nl_rem nl_price].
  destruct (validate_qty_done c q V) as [v Hv]. rewrite Hv. cbn [bind]. rewrite (quantity_view _ _ _ (vc_qtick _ V) Hq Hv).
  destruct v as [u|]; [|reflexivity]. cbn [set_trk ex_ms ex_next_id].
  change (Z.quot (m_bid (view e) + m_ask (view e)) 2) with (mid_price (ex_ms e)).
  destruct (validate_price_done c p (mid_price (ex_ms e)) V) as [v Hpv]. rewrite Hpv. cbn [bind]. rewrite (price_view _ _ _ _ _ (vc_ptick _ V) Hp Hpv).
  destruct v as [u'|]; [|reflexivity]. cbn [set_next_id set_trk ex_ms ex_pos ex_acc ex_om].
  set (ord := limit_into_pending {| nl_uid := uid; nl_side := sd; nl_price := p; nl_rem := q |} (ex_next_id e) (ms_ts (ex_ms e))).
  change {| lo_uid := uid; lo_side := sd; lo_price := p; lo_rem := q; lo_id := m_next (view e); lo_ts := m_time (view e); lo_filled := Unfilled |} with ord.
  assert (Hg' : good_book (ex_active e ++ [ord])) by (apply good_snoc; assumption).
  eapply fits_known.
  { unfold check_limit_order. rewrite with_order_eq, HB, !om_eq by (assumption || apply (inv_pos _ _ I)). cbn [bind]. rewrite !req_need, <- HB. reflexivity. }
  change (m_orders (view e)) with (ex_om e). rewrite free_wallet, pos_view. fold (bal (ex_acc e) WALLET).
  destruct (_ <? _); [reflexivity|].
  assert (Mk : match sd with Buy => m_ask (view e) <=? p | Sell => p <=? m_bid (view e) end = marketable (ex_ms e) ord) by (destruct sd; reflexivity).
  rewrite Mk. destruct (marketable (ex_ms e) ord); [reflexivity|].
  apply fits_last; [|intros [e3 a] _; destruct a; eauto].
  set (e2 := set_next_id _ _). assert (I2 : Inv c (trk_next e (log_limit_order_submission (ex_trk e)) (ex_next_id e + 1))) by (apply trk_next_inv; exact I).
  pose proof (fits_append c (trk_next e (log_limit_order_submission (ex_trk e)) (ex_next_id e + 1)) ord V I2 Hq Hp (inv_fresh _ _ I)) as F.
  change (trk_next e (log_limit_order_submission (ex_trk e)) (ex_next_id e + 1)) with e2 in F.
  change (ex_om e2) with (ex_om e) in F. change (ex_pos e2) with (ex_pos e) in F. change (ex_acc e2) with (ex_acc e) in F. cbv zeta in F.
  destruct (c_max c <=? Z.of_nat (length (ex_om e))); [exact F|].
  replace (demand _ PWalletNegative) with (demand ((need c (ex_om e ++ [ord]) (position_quantity (ex_pos e)) =? bal (ex_acc e) ORDER_MARGIN)
        || (0 <=? bal (ex_acc e) WALLET - Z.abs (need c (ex_om e ++ [ord]) (position_quantity (ex_pos e)) - bal (ex_acc e) ORDER_MARGIN))) PWalletNegative); [exact F|].
  f_equal. unfold m_free. cbn [with_id with_orders view m_book m_held m_reserved ledger_abs l_cash]. f_equal; [lia | f_equal; lia].
Qed.

(** ** Cancellations *)
Lemma fits_cancel c e b : valid_config c -> Inv c e -> fits (cancel_limit_order c e b) (cancel_crash c (view e) b).
Proof.
  intros V I. pose proof (inv_good _ _ I) as Hg. pose proof (inv_books _ _ I) as HB. pose proof (inv_pos _ _ I) as Hok.
  unfold cancel_limit_order, cancel_crash, computed_order_margin at 1.
  change (m_orders (view e)) with (ex_om e). change (m_pos (view e)) with (position_quantity (ex_pos e)). change (m_reserved (view e)) with (bal (ex_acc e) ORDER_MARGIN).
  rewrite HB at 1. rewrite om_eq at 1 by assumption. rewrite req_need. cbn [bind]. fold (bal (ex_acc e) ORDER_MARGIN). rewrite HB.
  apply fits_bind; [apply fits_assert; reflexivity|]. intros _ _. rewrite first_single.
  assert (Hmain : forall o act', remove_with (ex_active e) b = Some (o, act') ->
    fits
     (om' <- om_remove (ex_om (set_active e act')) b ;;
      new_om <- computed_order_margin c (set_om (set_active e act') om') ;;
      _ <- assert (new_om <=? bal (ex_acc e) ORDER_MARGIN) PCancelMarginGrows ;;
      e3 <- (if new_om <? bal (ex_acc e) ORDER_MARGIN then
               acc <- transfer (c_dbg c) (ex_acc (set_om (set_active e act') om')) WALLET ORDER_MARGIN (bal (ex_acc e) ORDER_MARGIN - new_om) ;;
               Done (set_acc (set_om (set_active e act') om') acc)
             else Done (set_om (set_active e act') om')) ;;
      let e4 := set_trk e3 (log_limit_order_cancellation (ex_trk e3)) in
      _ <- assert (orders_eqb (ex_om e4) (ex_active e4)) PCancelBooks ;;
      _ <- assert (match ex_active e4 with
                   | [] => margin_balance_of (ex_acc e4) ORDER_MARGIN =? 0
                   | _ => true end) PCancelEmptyMargin ;;
      Done (e4, @Ok error _ o))
     (match find (named b) (ex_active e) with None => None
      | Some _ => demand (m_reserved (m_drop c (view e) b) <=? bal (ex_acc e) ORDER_MARGIN) PCancelMarginGrows end)).
  { intros o act' Hr. destruct (remove_with_take _ _ _ _ Hr) as [Ha Hf]. rewrite Hf.
    cbn [set_active ex_om]. rewrite HB.
    assert (Hom : om_remove (ex_active e) b = Done act').
    { unfold om_remove. unfold remove_with in Hr. destruct b; rewrite Hr; reflexivity. }
    rewrite Hom. cbn [bind]. pose proof (remove_with_spec _ _ _ _ Hr) as (_ & _ & Hperm).
    pose proof (good_cons_perm _ _ _ Hperm Hg) as Hg'.
    unfold computed_order_margin. cbn [set_om set_active ex_om ex_pos ex_acc].
    rewrite om_eq by assumption. cbn [bind]. rewrite req_need.
    unfold m_drop. cbn [with_orders m_reserved view m_orders]. change (m_pos (view e)) with (position_quantity (ex_pos e)). rewrite HB, <- Ha.
    set (n := need c act' (position_quantity (ex_pos e))). rewrite <- (first_single (demand _ _)).
    apply fits_bind; [apply fits_assert; reflexivity|]. intros ? _. cbn [first_of].
    apply fits_skip.
    { destruct (Z.ltb_spec n (bal (ex_acc e) ORDER_MARGIN)); [|reflexivity]. apply fits_skip; [apply fits_transfer_pos; lia | intros; reflexivity]. }
    intros e3 _. cbv zeta. apply fits_skip; [apply fits_assert_dead; dead|]. intros _ _.
    apply fits_skip; [apply fits_assert_dead; dead|]. intros; reflexivity. }
  destruct b as [id|uid]; cbn [remove_with] in Hmain.
  - destruct (remove_by_order_id (ex_active e) id) as [[o act']|] eqn:Er; [exact (Hmain o act' eq_refl)|].
    apply (remove_with_none _ (ByOrderId id)) in Er. rewrite Er. reflexivity.
  - destruct (remove_by_user_order_id (ex_active e) uid) as [[o act']|] eqn:Er; [exact (Hmain o act' eq_refl)|].
    apply (remove_with_none _ (ByUserOrderId uid)) in Er. rewrite Er. reflexivity.
Qed.

Lemma fits_amend c e id sd p q uid :
  valid_config c -> Inv c e -> 0 < p -> 0 < q ->
  fits (amend_limit_order c e id {| nl_uid := uid; nl_side := sd; nl_price := p; nl_rem := q |}) (amend_crash c (view e) id sd p q uid).
Proof.
  intros V I Hp Hq. pose proof (inv_books _ _ I) as HB. unfold amend_limit_order, amend_crash.
  destruct (Z.leb_spec p 0); [lia|]. destruct (Z.leb_spec q 0); [lia|]. cbn [orb].
  change (m_orders (view e)) with (ex_om e). rewrite HB. unfold get_by_id. change (fun o => lo_id o =? id) with (named (ByOrderId id)).
  destruct (find (named (ByOrderId id)) (ex_active e)) as [x|] eqn:Ex; [|reflexivity]. cbv zeta.
  apply fits_skip; [unfold lo_total_quantity; apply fits_skip; [apply fits_assert_dead; dead | intros; reflexivity]|].
  intros total Ht. assert (Et : total = lo_rem x + lo_filled_qty x).
  { unfold lo_total_quantity in Ht. apply bind_done in Ht as [? [_ Ht]]. injection Ht as <-. unfold lo_filled_qty. destruct (lo_filled x); lia. }
  cbn [nl_rem]. replace (lo_rem x + (q - total)) with (q - lo_filled_qty x) by lia.
  destruct (Z.leb_spec (q - lo_filled_qty x) 0).
  - rewrite first_snoc_none. rewrite <- (first_single (cancel_crash _ _ _)). apply fits_bind; [apply fits_cancel; assumption|].
    intros [e1 r] _. cbn [first_of]. destruct r; [reflexivity | left; dead].
  - apply fits_skip; [apply fits_skip; [apply fits_assert_dead; dead | intros; reflexivity]|]. intros o' Ho'.
    apply bind_done in Ho' as [? [_ Ho']]. injection Ho' as <-. cbn [nl_uid nl_side nl_price].
    apply fits_bind; [apply fits_cancel; assumption|]. intros [e1 r] Hc. rewrite first_single.
    apply cancel_spec in Hc as [_ Hc]. destruct r as [o|err].
    + destruct (drop_view _ _ _ _ _ V I Hc) as [Hv _]. rewrite <- Hv. apply fits_submit; try assumption. eapply cancel_effect_inv; eassumption.
    + exfalso. destruct Hc as (_ & Hn & _). apply remove_with_none in Hn. congruence.
Qed.

(** ** Market data *)
Lemma min_in f p : is_ok (enforce_min_price (pf_min f) p) = match pf_min f with Some x => (x =? 0) || (x <=? p) | None => true end.
Proof. unfold enforce_min_price. destruct (pf_min f) as [x|]; [|reflexivity]. destruct (Z.ltb_spec p x), (Z.eqb_spec x 0), (Z.leb_spec x p); try lia; reflexivity. Qed.
Lemma max_in f p : is_ok (enforce_max_price (pf_max f) p) = match pf_max f with Some x => (x =? 0) || (p <=? x) | None => true end.
Proof. unfold enforce_max_price. destruct (pf_max f) as [x|]; [|reflexivity]. destruct (Z.ltb_spec x p), (Z.eqb_spec x 0), (Z.leb_spec p x); try lia; reflexivity. Qed.
Lemma in_split f p : price_in f p = is_ok (enforce_min_price (pf_min f) p) && is_ok (enforce_max_price (pf_max f) p).
Proof. rewrite min_in, max_in. reflexivity. Qed.
Lemma step_in t p : t <> 0 -> exists r, enforce_step_size t p = Done r /\ is_ok r = (p mod t =? 0).
Proof.
  intros H. unfold enforce_step_size, drem. destruct (Z.eqb_spec t 0); [contradiction|]. cbn [bind]. eexists. split; [reflexivity|].
  rewrite mod_rem by exact H. destruct (_ =? 0); reflexivity.
Qed.
Lemma step_zero p : enforce_step_size 0 p = Panic PDivByZero.
Proof. reflexivity. Qed.
Lemma spread_in b a : is_ok (enforce_bid_ask_spread b a) = (b <? a).
Proof. unfold enforce_bid_ask_spread. destruct (Z.leb_spec a b), (Z.ltb_spec b a); try lia; reflexivity. Qed.

(** A chain of validations. *)
Definition verdict {B} (m : outcome (result filter_error B)) (b : bool) : Prop := exists v, m = Done v /\ is_ok v = b.
Lemma verdict_then {A B} (m : outcome (result filter_error A)) (k : outcome (result filter_error B)) b b' :
  verdict m b -> (b = true -> verdict k b') -> verdict (and_then m k) (b && b').
Proof.
  intros (v & -> & Hb) Hk. unfold and_then. cbn [bind]. destruct v as [x|err]; cbn in Hb; subst b; cbn [andb].
  - exact (Hk eq_refl).
  - exists (Err err). split; reflexivity.
Qed.
Lemma verdict_done {B} (r : result filter_error B) b : is_ok r = b -> verdict (Done r) b.
Proof. intros H. exists r. split; [reflexivity | exact H]. Qed.
Lemma verdict_step t p : t <> 0 -> verdict (enforce_step_size t p) (p mod t =? 0).
Proof. intros H. destruct (step_in t p H) as (r & -> & E). exists r. split; [reflexivity | exact E]. Qed.
Lemma verdict_eq {B} (m : outcome (result filter_error B)) b b' : verdict m b -> b = b' -> verdict m b'.
Proof. intros H <-. exact H. Qed.

Ltac chain := repeat first [ eapply verdict_then; [ first [apply verdict_done; reflexivity | apply verdict_step; assumption] | intros _ ]
                           | apply verdict_step; assumption | apply verdict_done; reflexivity ].
Ltac settle := unfold price_valid; rewrite ?in_split, ?spread_in;
  repeat match goal with |- context [is_ok ?x] => destruct (is_ok x) end;
  repeat match goal with |- context [?x mod ?y =? 0] => destruct (x mod y =? 0) end;
  repeat match goal with |- context [?x <? ?y] => destruct (x <? y) end; reflexivity.
Lemma bba_verdict f b : pf_tick f <> 0 -> verdict (validate_bba f b) (quote_valid f b).
Proof. intros H. unfold validate_bba. eapply verdict_eq; [chain | unfold quote_valid; settle]. Qed.
Lemma trade_verdict f t : pf_tick f <> 0 -> verdict (validate_trade f t) (price_valid f (tr_price t)).
Proof. intros H. unfold validate_trade. eapply verdict_eq; [chain | settle]. Qed.
Lemma candle_verdict f k : pf_tick f <> 0 -> verdict (validate_candle f k) (data_valid f (RCandle k)).
Proof. intros H. unfold validate_candle. eapply verdict_eq; [chain | unfold data_valid; settle]. Qed.

Lemma fits_bba f b :
  fits (v <- validate_bba f b ;; assert (is_ok v) PSmartBba)
    (first_of [ demand (negb ((pf_tick f =? 0) && price_in f (bb_bid b) && price_in f (bb_ask b))) PDivByZero; demand (quote_valid f b) PSmartBba ]).
Proof.
  destruct (Z.eqb_spec (pf_tick f) 0) as [E|E].
  - unfold validate_bba. rewrite E, !step_zero. cbn [andb].
    unfold and_then. cbn [bind].
    assert (Q : price_in f (bb_bid b) && price_in f (bb_ask b) = false -> quote_valid f b = false).
    { unfold quote_valid, price_valid. intros H. destruct (price_in f (bb_bid b)); [|reflexivity]. cbn [andb] in *. rewrite H. cbn. rewrite andb_false_r. reflexivity. }
    rewrite !in_split in *.
    destruct (enforce_min_price (pf_min f) (bb_bid b)), (enforce_min_price (pf_min f) (bb_ask b)),
      (enforce_max_price (pf_max f) (bb_bid b)), (enforce_max_price (pf_max f) (bb_ask b)); cbn [is_ok andb bind] in *;
      first [ right; reflexivity | rewrite Q by reflexivity; right; reflexivity ].
  - cbn [andb negb]. destruct (bba_verdict f b E) as (v & -> & Hv). cbn [bind]. rewrite Hv. unfold assert, demand; destruct (quote_valid f b); [reflexivity | right; reflexivity].
Qed.

Lemma fits_any_valid f l :
  match any_valid f l with
  | Done b => (pf_tick f =? 0) && existsb (fun t => price_in f (tr_price t)) l = false /\ b = existsb (fun t => price_valid f (tr_price t)) l
  | Panic w => w = PDivByZero /\ (pf_tick f =? 0) && existsb (fun t => price_in f (tr_price t)) l = true
  end.
Proof.
  destruct (Z.eqb_spec (pf_tick f) 0) as [E|E].
  - induction l as [|t l IH]; cbn [any_valid existsb andb]; [split; reflexivity|].
    unfold validate_trade. rewrite E, step_zero. unfold and_then. cbn [bind]. unfold price_valid. rewrite in_split.
    destruct (enforce_min_price (pf_min f) (tr_price t)), (enforce_max_price (pf_max f) (tr_price t)); cbn [is_ok andb orb bind] in *; try exact IH; auto.
  - induction l as [|t l IH]; cbn [any_valid existsb andb]; [split; reflexivity|].
    destruct (trade_verdict f t E) as (v & -> & Hv). cbn [bind]. rewrite <- Hv. destruct (is_ok v); cbn [orb]; [split; reflexivity|].
    cbn [andb] in IH. exact IH.
Qed.


Lemma fits_build c ru : fits (build_update (c_dbg c) ru) (build_crash c ru).
Proof.
  destruct ru as [b|t|k|l b f]; try reflexivity. cbn [build_update build_crash].
  apply fits_last; [|eauto]. unfold smart_candle_new. destruct l as [|t0 l]; [right; reflexivity|]. set (ts := t0 :: l).
  cbv zeta. change (match ts with [] => false | _ :: _ => true end) with true. unfold demand at 1.
  match goal with |- fits _ (first_of (None :: ?l)) => change (first_of (None :: l)) with (first_of l) end.
  match goal with |- fits _ (first_of [?x; ?y; ?z; ?u; ?v]) => change (first_of [x; y; z; u; v]) with (first_of ([x; y] ++ [z; u] ++ [v]));
     rewrite (first_app [x; y] ([z; u] ++ [v])), (first_app [z; u] [v]), (first_single v) end.
  apply fits_bind.
  - pose proof (fits_any_valid f ts) as A. unfold debug_assert_m, in_debug. destruct (c_dbg c); [|reflexivity].
    destruct (any_valid f ts) as [b0|w]; cbn [bind].
    + destruct A as [A ->]. destruct (pf_tick f =? 0); cbn [andb] in A; [rewrite A|]; cbn [negb demand first_of];
        (match goal with |- fits _ ?x => change (fits (assert (existsb (fun t => price_valid f (tr_price t)) ts) PSmartNoValidDebug) x) end;
         unfold assert, demand; destruct (existsb (fun t => price_valid f (tr_price t)) ts); [reflexivity | right; reflexivity]).
    + destruct A as [-> A]. apply andb_true_iff in A as [-> ->]. right. reflexivity.
  - intros _ _. rewrite first_single. pose proof (fits_bba f b) as F. destruct (validate_bba f b) as [v|w]; cbn [bind] in *.
    + apply fits_bind; [exact F|]. intros _ _. rewrite first_single. apply fits_last; [apply fits_debug; reflexivity | eauto].
    + destruct F as [F|F]; [left; exact F|]. right. rewrite F. reflexivity.
Qed.

Lemma fits_data c ru u m :
  valid_config c -> build_update (c_dbg c) ru = Done u ->
  fits (market_update_state (c_dbg c) (ct_pf (c_spec c)) u m) (in_debug c (demand (data_valid (ct_pf (c_spec c)) ru) PInvalidUpdateDebug)).
Proof.
  intros V Hb. unfold market_update_state. apply fits_last; [|eauto].
  assert (H : verdict (validate_market_update (ct_pf (c_spec c)) u) (data_valid (ct_pf (c_spec c)) ru)).
  { pose proof (vc_ptick _ V) as Ht. destruct ru as [b|t|k|l b f]; cbn [build_update] in Hb; try (injection Hb as <-).
    - apply bba_verdict, Ht.
    - apply trade_verdict, Ht.
    - apply candle_verdict, Ht.
    - apply bind_done in Hb as [sc [_ Hb]]. injection Hb as <-. exists (Ok tt). split; reflexivity. }
  destruct H as (v & -> & Hv). cbn [bind]. rewrite <- Hv. apply fits_debug_m. reflexivity.
Qed.

(** ** Fills of resting orders *)
Lemma fits_touched c ru u o :
  build_update (c_dbg c) ru = Done u -> can_fill u = true ->
  fits (limit_order_filled (c_dbg c) u o) (match ru with RTrade t => in_debug c (demand (0 <? tr_qty t) PTradeQtyDebug) | _ => None end).
Proof.
  intros Hb Hc. destruct ru as [b|t|k|l b f]; cbn [build_update] in Hb; try (injection Hb as <-).
  - discriminate.
  - cbn [limit_order_filled]. unfold trade_fills. rewrite <- (first_single (in_debug _ _)).
    apply fits_bind; [apply fits_debug; reflexivity|]. intros _ _. cbn [first_of].
    apply fits_skip; [apply fits_debug_dead; dead|]. intros; reflexivity.
  - cbn [limit_order_filled]. unfold candle_fills. apply fits_skip; [apply fits_debug_dead; dead|]. intros; reflexivity.
  - apply bind_done in Hb as [sc [_ Hb]]. injection Hb as <-. reflexivity.
Qed.

Lemma book_after_meet c e o q om1 ru :
  NoDup (ids (ex_om e)) -> In o (ex_om e) -> book_after c (ex_om e) o q om1 ->
  om1 = match reported_as (c_scale c) o q (time_of ru) with
        | FullyFilled _ => take_out (named (ByOrderId (lo_id o))) (ex_om e)
        | PartiallyFilled o' => map (fun x => if lo_id x =? lo_id o then o' else x) (ex_om e)
        end.
Proof.
  intros Hnd Hin H. rewrite <- fill_event_report. unfold fill_event. unfold book_after in H. destruct (q =? lo_rem o).
  - apply om_remove_id_done in H as [x Hx]. exact (proj1 (remove_with_take _ (ByOrderId (lo_id o)) _ _ Hx)).
  - apply om_update_done in H as [Hr [(Hnone & _)|(old & Hold & Hb & _)]].
    + exfalso. apply get_by_id_none in Hnone. apply Hnone. apply (in_map lo_id) in Hin. exact Hin.
    + rewrite replace_by_id_map in Hb by exact Hnd. exact Hb.
Qed.

Lemma fits_fill c ru u e l o :
  valid_config c -> build_update (c_dbg c) ru = Done u -> can_fill u = true -> Mid c e -> In o (ex_om e) -> order_ok o ->
  fits (fill_one c u e l o) (meet_crash c ru (view e) o).
Proof.
  intros V Hb Hc M Ho Hok. pose proof Hok as (Hrem & Hprice & Hfill). unfold fill_one, meet_crash. cbv zeta.
  apply fits_bind; [apply fits_touched; assumption|]. intros f Hf. rewrite first_single.
  assert (Ht : touched ru o = f) by (symmetry; eapply fillq_touched; eassumption). rewrite Ht.
  destruct f as [q|]; [|reflexivity].
  apply fits_skip; [apply fits_debug_dead; dead|]. intros _ _.
  assert (Hom : computed_order_margin c e = Done (need c (ex_om e) (position_quantity (ex_pos e)))).
  { rewrite <- req_need. apply om_eq; [assumption | apply (mi_good _ _ M) | apply (mi_pos _ _ M)]. }
  apply fits_bind; [apply fits_debug_m; rewrite Hom; reflexivity|]. intros _ _.
  apply fits_bind.
  { unfold order_fill. apply fits_skip; [apply fits_assert_dead; dead|]. intros _ _.
    rewrite <- (first_single (demand _ _)). apply fits_bind; [apply fits_assert; reflexivity|]. intros ? Hq. apply assert_done in Hq. cbn [first_of].
    destruct (lo_filled o) as [|cum avg]; [destruct (q =? lo_rem o); reflexivity|].
    eapply fits_known; [apply new_weighted_price_ok; lia|]. destruct (_ =? 0); reflexivity. }
  intros [o' filled] Hof. apply order_fill_spec in Hof as (Hq & -> & ->).
  pose proof (get_by_id_nodup _ _ (mi_nodup _ _ M) Ho) as Hget.
  match goal with |- fits (bind ?m _) _ => assert (Hbook : exists e1 l1 om1, book_after c (ex_om e) o q om1 /\
    ex_om e1 = om1 /\ ex_pos e1 = ex_pos e /\ ex_acc e1 = ex_acc e /\ m = Done (e1, l1)) end.
  { unfold book_after. destruct (Z.eqb_spec q (lo_rem o)).
    - unfold om_remove. change (lo_id (after_fill (c_scale c) o q)) with (lo_id o).
      destruct (remove_by_order_id (ex_om e) (lo_id o)) as [[x b']|] eqn:Er.
      + eexists _, _, _. split; [reflexivity|]. cbn [bind]. split; [|split; [|split; [|reflexivity]]]; reflexivity.
      + exfalso. apply remove_id_none in Er. apply Er. apply in_map; assumption.
    - assert (Hup : om_update (c_max c) (ex_om e) (after_fill (c_scale c) o q) = Done (replace_by_id (ex_om e) (lo_id o) (after_fill (c_scale c) o q), Ok tt)).
      { unfold om_update, book_insert. change (lo_id (after_fill (c_scale c) o q)) with (lo_id o). rewrite Hget.
        cbn [after_fill lo_rem]. destruct (Z.ltb_spec 0 (lo_rem o - q)); [|lia]. cbn [assert bind].
        destruct (limit_order_eq_dec o _) as [E|_]; [apply (f_equal lo_rem) in E; cbn in E; lia|]. cbn [assert bind].
        destruct (Z.ltb_spec (lo_rem o - q) (lo_rem o)); [reflexivity | lia]. }
      rewrite Hup. eexists _, _, _. split; [reflexivity|]. cbn [after_fill lo_rem].
      destruct (Z.ltb_spec 0 (lo_rem o - q)); [|lia]. rewrite debug_assert_true. cbn [bind].
      split; [|split; [|split; [|reflexivity]]]; reflexivity. }
  destruct Hbook as (e1 & l1 & om1 & Hom1 & E1 & E2 & E3 & Hbk). rewrite Hbk. clear Hbk. cbn [bind].
  pose proof (book_after_meet c e o q om1 ru (mi_nodup _ _ M) Ho Hom1) as Hmeet.
  assert (Hg1 : good_book om1).
  { unfold book_after in Hom1. destruct (q =? lo_rem o).
    - eapply good_remove; [apply (mi_good _ _ M) | exact Hom1].
    - eapply good_update; [apply (mi_good _ _ M) | | exact Hom1]. exact Hprice. }
  cbn [after_fill lo_price lo_side].
  eapply fits_known; [apply convert_ok, divides_pos, Hprice|].
  apply fits_bind.
  { rewrite E2, E3. apply fits_change; [lia | assumption | apply (mi_pos _ _ M) | reflexivity..]. }
  intros [pos acc] Hcp. rewrite E2, E3 in Hcp. apply change_position_cases in Hcp. rewrite first_single.
  pose proof (cp_pos_ok _ _ _ _ _ _ _ _ _ Hcp (mi_pos _ _ M)) as Hpok.
  match goal with |- fits (bind (log_trade c ?t ?a ?b ?d) _) _ => destruct (log_trade_ok c t a b d) as [t2 ->]; [assumption | lia|] end. cbn [bind].
  unfold computed_order_margin. cbn [set_trk set_acc set_pos ex_om ex_pos]. rewrite E1.
  rewrite om_eq by assumption. rewrite req_need. cbn [bind].
  assert (Hn : need c (m_orders (m_meet c ru (view e) o)) (m_pos (m_meet c ru (view e) o)) = need c om1 (position_quantity pos)).
  { unfold m_meet. rewrite Ht. cbn [with_orders m_orders m_pos m_book m_fill view]. rewrite <- Hmeet. f_equal. unfold m_pos. cbn [with_orders m_book m_fill].
    pose proof (cp_ledger c (ex_acc e) q (lo_price o) (lo_side o) _ (ex_pos e) pos acc (ct_maker (c_spec c)) (mi_pos _ _ M) eq_refl Hcp) as HL.
    cbn [view m_book]. rewrite <- HL. reflexivity. }
  rewrite Hn. set (n := need c om1 (position_quantity pos)).
  rewrite <- (first_single (in_debug _ _)). apply fits_bind; [apply fits_debug; reflexivity|]. intros _ _. cbn [first_of].
  apply fits_skip; [|intros; reflexivity].
  match goal with |- fits (if ?a <? ?b then _ else _) _ => destruct (Z.ltb_spec a b) as [Hlt|Hlt] end; [|reflexivity].
  apply fits_skip; [apply fits_transfer_pos; lia | intros; reflexivity].
Qed.

Lemma fits_loop c ru u todo :
  valid_config c -> build_update (c_dbg c) ru = Done u -> can_fill u = true -> forall e l,
  Mid c e -> NoDup (ids todo) -> incl todo (ex_om e) -> (forall o, In o todo -> order_ok o) ->
  fits (fill_loop c u e l todo) (meet_all_crash c ru (view e) todo).
Proof.
  intros V Hb Hc. induction todo as [|o t IH]; intros e l M Hn Hi Hok; cbn [fill_loop meet_all_crash]; [reflexivity|].
  assert (Ho : In o (ex_om e)) by (apply Hi; left; reflexivity).
  apply fits_bind; [apply fits_fill; auto; apply Hok; left; reflexivity|].
  intros [[e1 l1] o1] H1. rewrite first_single. destruct (fill_one_next _ _ _ _ _ _ _ _ V M Ho H1) as [M1 Hk].
  inversion Hn as [|? ? Hni Hn']; subst.
  assert (Hv : m_meet c ru (view e) o = view e1).
  { apply fill_one_spec in H1 as (f & Hf & H1). assert (Ht : touched ru o = f) by (symmetry; eapply fillq_touched; eassumption).
    destruct f as [q|].
    - destruct H1 as (He & _). symmetry. eapply meet_one; [exact V | exact He | exact Ht | apply (time_of_update _ _ _ Hb) | apply (mi_nodup _ _ M) | apply (mi_good _ _ M) | apply (mi_pos _ _ M) | exact Ho].
    - destruct H1 as (-> & _). unfold m_meet. rewrite Ht. reflexivity. }
  rewrite Hv. apply fits_last; [|intros [[e2 l2] t2] _; eauto].
  apply IH; [assumption | assumption | | intros x Hx; apply Hok; right; exact Hx].
  intros x Hx. apply Hk; [|apply Hi; right; exact Hx]. intros E. apply Hni. rewrite <- E. apply in_map; exact Hx.
Qed.

Lemma fits_check c ru u e :
  valid_config c -> Sound c e -> build_update (c_dbg c) ru = Done u ->
  fits (check_active_orders c e u) (check_crash c (view e) ru).
Proof.
  intros V S Hb. pose proof (so_inv _ _ S) as I. unfold check_active_orders. cbv zeta.
  destruct (can_fill u) eqn:Hc; cbn [negb].
  2:{ destruct ru as [b|t|k|l b f]; cbn [build_update] in Hb; try (injection Hb as <-); try discriminate; [reflexivity|].
      apply bind_done in Hb as [? [_ Hb]]. injection Hb as <-. discriminate. }
  assert (X : check_crash c (view e) ru = first_of [ meet_all_crash c ru (view e) (ex_om e);
                 in_debug c (demand (m_reserved (m_meet_all c ru (view e)) =? need c (m_orders (m_meet_all c ru (view e))) (m_pos (m_meet_all c ru (view e)))) PEndMarginDebug);
                 demand (0 <=? m_free (m_meet_all c ru (view e))) PWalletNegative ]).
  { destruct ru; try reflexivity. cbn [build_update] in Hb. injection Hb as <-. discriminate. }
  rewrite X. clear X. cbn [set_updates ex_om ex_active]. rewrite (inv_books _ _ I).
  apply fits_skip; [apply fits_debug_dead; dead|]. intros _ _.
  assert (M0 : Mid c (set_updates e [])).
  { pose proof (sound_mid _ _ S) as M. destruct M. constructor; cbn; auto. }
  apply fits_bind.
  { change (view e) with (view (set_updates e [])). apply fits_loop; try assumption; [apply (inv_nodup _ _ I) | | apply (inv_ok _ _ I)].
    cbn. rewrite (inv_books _ _ I). intros x Hx; exact Hx. }
  intros [[e1 ids'] arena] Hl. apply fill_loop_spec in Hl as (Hf & Hfills & -> & ->). cbn [app].
  pose proof (fills_book _ _ _ _ _ [] [] Hfills) as HB. cbn [app] in HB.
  specialize (HB (inv_nodup _ _ I) (fun i Hi => match Hi with end)).
  cbn [set_updates ex_om remove_executed] in HB. rewrite (inv_books _ _ I) in HB. specialize (HB eq_refl). rewrite HB. cbn [bind].
  assert (M1 : Mid c e1).
  { eapply fills_mid; [assumption | exact Hfills | assumption|]. cbn. apply (inv_todo c e I). }
  assert (Hv : m_meet_all c ru (view e) = view e1).
  { unfold m_meet_all. change (m_orders (view e)) with (ex_om e). rewrite (inv_books _ _ I). change (view e) with (view (set_updates e [])). symmetry.
    eapply meet_all; [exact V | exact Hfills | | apply (time_of_update _ _ _ Hb) | apply (mi_nodup _ _ M0) | apply (mi_good _ _ M0) | apply (mi_pos _ _ M0) | apply (inv_nodup _ _ I) |].
    - intros o Ho. eapply fillq_touched; [exact Hb | apply Hf; exact Ho].
    - intros o Ho. cbn [set_updates ex_om]. rewrite (inv_books _ _ I). exact Ho. }
  rewrite Hv. cbn [set_active ex_om ex_active ex_acc].
  apply fits_skip; [apply fits_debug_dead; dead|]. intros _ _. apply fits_skip; [apply fits_debug_dead; dead|]. intros _ _.
  apply fits_bind.
  { apply fits_debug_m. unfold computed_order_margin. cbn [set_active ex_om ex_pos].
    rewrite om_eq; [|assumption | apply (mi_good _ _ M1) | apply (mi_pos _ _ M1)]. cbn [bind]. rewrite req_need. reflexivity. }
  intros _ _. rewrite first_single. apply fits_last; [|eauto]. rewrite free_wallet. apply fits_assert. reflexivity.
Qed.

Lemma fits_update c ru u e :
  valid_config c -> reachable c e -> Sound c e -> build_update (c_dbg c) ru = Done u ->
  fits (update_state c e u) (update_crash c (view e) ru).
Proof.
  intros V R S Hb. unfold update_state, update_crash. cbv zeta. apply fits_bind; [apply fits_data; assumption|]. rewrite first_single.
  intros ms Hm. unfold market_update_state in Hm. apply bind_done in Hm as [? [_ Hm]]. injection Hm as <-.
  pose proof (pre_check_sound c e u S) as S0. pose proof (so_inv _ _ S0) as I0.
  assert (H2 : fits
              match check_maintenance_margin c (ms_bid (ex_ms (pre_check c e u)))
                       (ms_ask (ex_ms (pre_check c e u))) (ex_pos (pre_check c e u)) with
               | Err err => e5 <- liquidate c (pre_check c e u) ;; Done (e5, @Err _ (list order_update) (ERisk err))
               | Ok _ => e5 <- check_active_orders c (pre_check c e u) u ;; Done (e5, Ok (ex_updates e5))
               end
              (if m_due c (view (pre_check c e u)) then
                 first_of [ demand (match quantity_fault (ct_qf (c_spec c)) (Z.abs (m_pos (view (pre_check c e u)))) with None => true | Some _ => false end) PLiquidateSubmit;
                   take_crash c (view (pre_check c e u)) (if 0 <? m_pos (view (pre_check c e u)) then Sell else Buy) (Z.abs (m_pos (view (pre_check c e u)))) ]
               else check_crash c (view (pre_check c e u)) ru)).
  { pose proof (due_view c e ru u Hb (inv_pos _ _ (so_inv _ _ S))) as D.
    assert (Ep : ex_pos (pre_check c e u) = ex_pos e) by (destruct (pre_check_fields c e u) as (? & ? & ? & ? & ? & ?); assumption).
    destruct (maintenance_due c e ru u V R Hb) as [[E Hd]|[E Hd]]; rewrite <- Ep in E; rewrite E.
    - apply D in Hd. rewrite Hd. apply fits_last; [|eauto]. apply fits_liquidate; [assumption | assumption|]. eapply maintenance_neutral; exact E.
    - destruct (m_due c (view (pre_check c e u))) eqn:Em; [exfalso; apply Hd, D; reflexivity|].
      apply fits_last; [|eauto]. apply fits_check; assumption. }
  rewrite (pre_check_view c e ru u Hb) in H2.
  unfold pre_check in H2. cbn [set_ms set_trk ex_trig ex_ms ex_trk] in *.
  destruct (should_trigger (ex_trig e) (update_ts u)) as [trig fire]. exact H2.
Qed.

(** ** Calls *)
Lemma fits_step c e o : valid_config c -> reachable c e -> fits (step c e o) (m_crash c (view e) o).
Proof.
  intros V R. pose proof (reachable_sound c e V R) as S. pose proof (so_inv _ _ S) as I. destruct o; cbn [step m_crash].
  - apply fits_bind; [apply fits_build|]. intros u Hu. rewrite first_single. apply fits_map_out, fits_update; assumption.
  - unfold market_new, market_crash. destruct (Z.leb_spec qty 0) as [Hq|Hq]; [reflexivity|].
    apply fits_map_out. pose proof (fits_market c e {| nm_uid := uid; nm_side := sd; nm_qty := qty |} V I Hq) as F. unfold market_crash in F. cbn [nm_qty nm_side] in F.
    destruct (Z.leb_spec qty 0); [lia|]. exact F.
  - unfold limit_new, limit_crash. destruct (Z.leb_spec price 0); [reflexivity|]. destruct (Z.leb_spec qty 0); [reflexivity|]. cbn [orb].
    apply fits_map_out, fits_submit; assumption.
  - apply fits_map_out, fits_cancel; assumption.
  - unfold limit_new. destruct (Z.leb_spec price 0); [unfold amend_crash; destruct (Z.leb_spec price 0); [reflexivity | lia]|].
    destruct (Z.leb_spec qty 0); [unfold amend_crash; destruct (Z.leb_spec qty 0); [rewrite orb_true_r; reflexivity | lia]|].
    apply fits_map_out, fits_amend; assumption.
  - apply fits_bind; [apply fits_build|]. intros u Hu. rewrite first_single. apply fits_last; [apply fits_check; assumption | eauto].
Qed.

Lemma crash_step c e o :
  valid_config c -> reachable c e ->
  match step c e o with Done _ => m_crash c (machine_of e) o = None | Panic w => m_crash c (machine_of e) o = Some w end.
Proof.
  intros V R. rewrite (view_of c e (so_inv _ _ (reachable_sound c e V R))). pose proof (fits_step c e o V R) as F. destruct (step c e o) as [x|w] eqn:E; [exact F|].
  destruct F as [F|F]; [|exact F]. exfalso. unfold dead in F. apply in_app_or in F as [F|F].
  - exact (never_book c e o w V R F E).
  - exact (never_other c e o w V R F E).
Qed.

Lemma exec_step c e o : valid_config c -> reachable c e -> seen (step c e o) = m_exec c (machine_of e) o.
Proof.
  intros V R. pose proof (crash_step c e o V R) as H. unfold m_exec. destruct (step c e o) as [[e' r]|w] eqn:E; rewrite H; cbn [seen]; [|reflexivity].
  rewrite (machine_step _ _ _ _ _ V R E). reflexivity.
Qed.

Lemma exec_run c ops : forall e, valid_config c -> reachable c e -> seen (run c e ops) = m_play c (machine_of e) ops.
Proof.
  induction ops as [|o ops IH]; intros e V R; cbn [run m_play]; [reflexivity|].
  rewrite <- (exec_step c e o V R). destruct (step c e o) as [[e1 r]|w] eqn:E; cbn [bind seen]; [|reflexivity].
  rewrite <- (IH e1 V (reach_step _ _ _ _ _ R E)). destruct (run c e1 ops) as [[e2 rs]|w]; reflexivity.
Qed.

(** ** Consequences *)
Lemma crash_iff c e o w :
  valid_config c -> reachable c e -> (step c e o = Panic w <-> m_crash c (machine_of e) o = Some w).
Proof.
  intros V R. pose proof (crash_step c e o V R) as H. destruct (step c e o) as [x|w'] eqn:E; rewrite H; split; intros K; try discriminate; congruence.
Qed.
Lemma returns_iff c e o :
  valid_config c -> reachable c e -> ((exists e' r, step c e o = Done (e', r)) <-> m_crash c (machine_of e) o = None).
Proof.
  intros V R. pose proof (crash_step c e o V R) as H. destruct (step c e o) as [[e' r]|w'] eqn:E; rewrite H; split; intros K; try discriminate; eauto.
  destruct K as (? & ? & K). discriminate.
Qed.
Lemma init_total c : valid_config c -> exists e0, init c = Done e0.
Proof.
  intros V. unfold init, exchange_new, tracker_new, accounting_new, debug_assert_accounting_equation. cbn [bind].
  pose proof (vc_start _ V). destruct (Z.ltb_spec 0 (c_start c)); [|lia]. cbn [assert bind].
  match goal with |- context [debug_assert _ ?b _] => assert (E : b = true) end.
  { unfold debit_sum, credit_sum. cbn. lia. }
  rewrite E, debug_assert_true. cbn [bind]. eauto.
Qed.
Lemma exec_history c ops :
  valid_config c -> exists e0, init c = Done e0 /\ seen (run c e0 ops) = m_play c (m_start c) ops.
Proof.
  intros V. destruct (init_total c V) as [e0 Hi]. exists e0. split; [exact Hi|]. rewrite <- (machine_init c e0 Hi).
  apply exec_run; [exact V|]. exists [], [], e0. split; [exact Hi | reflexivity].
Qed.
Lemma same_machine_same_future c e1 e2 ops :
  valid_config c -> reachable c e1 -> reachable c e2 -> machine_of e1 = machine_of e2 ->
  seen (run c e1 ops) = seen (run c e2 ops).
Proof. intros V R1 R2 H. rewrite !exec_run by assumption. rewrite H. reflexivity. Qed.
