(** The lists of SpecNeeds.v are exact. *)
From Verif Require Import Base Types Filters Accounting Currency Position OrderBook OrderMargin
  Risk MarketUpdate Tracker Exchange Width Fixed FixedProof Spec SpecFixed SpecFits SpecNeeds.

Definition nfits (w : Z) (n : number) : bool :=
  match n with Amt z => fits w z | Cnt z => fits_unsigned 64 z | Tim z => fits 64 z end.
Definition tr {A} (w : Z) (m : checked A) (l : list number) (o : outcome A) : Prop :=
  m = if forallb (nfits w) l then Fine o else Overflow.

Lemma t_ret {A} w (a : A) : tr w (ret a) [] (Done a).
Proof. reflexivity. Qed.
Lemma t_fine {A} w (o : outcome A) : tr w (Fine o) [] o.
Proof. reflexivity. Qed.

Lemma t_bind {A B} w (m : checked A) l o (k : A -> checked B) l' o' :
  tr w m l o -> (forall a, tr w (k a) (l' a) (o' a)) -> tr w (cbind m k) (l ++ given o l') (bind o o').
Proof.
  unfold tr; intros -> H. rewrite forallb_app. destruct (forallb _ l); [|reflexivity].
  destruct o as [a|p]; cbn [cbind given bind andb]; [apply H | reflexivity].
Qed.
Lemma t_given {A B} w (o : outcome A) (k : A -> checked B) l' o' :
  (forall a, tr w (k a) (l' a) (o' a)) -> tr w (cbind (Fine o) k) (given o l') (bind o o').
Proof. intros H; exact (t_bind w (Fine o) [] o k l' o' (t_fine w o) H). Qed.
Lemma t_pure {A B} w (m : checked A) l a (k : A -> checked B) l' o' :
  tr w m l (Done a) -> tr w (k a) l' o' -> tr w (cbind m k) (l ++ l') o'.
Proof.
  unfold tr; intros -> H. rewrite forallb_app. destruct (forallb _ l); [exact H | reflexivity].
Qed.
Lemma t_need {A B} w (m : checked A) n a (k : A -> checked B) l' o' :
  tr w m [n] (Done a) -> tr w (k a) l' o' -> tr w (cbind m k) (n :: l') o'.
Proof. intros H1 H2; exact (t_pure w m [n] a k l' o' H1 H2). Qed.
(** The last step returns what it computed. *)
Lemma t_bind_ret {A B} w (m : checked A) l o (k : A -> checked B) o' :
  tr w m l o -> (forall a, tr w (k a) [] (o' a)) -> tr w (cbind m k) l (bind o o').
Proof.
  intros H1 H2. replace l with (l ++ given o (fun _ => [])).
  - apply t_bind; assumption.
  - destruct o; apply app_nil_r.
Qed.
Lemma t_pure_ret {A B} w (m : checked A) l a (k : A -> checked B) o' :
  tr w m l (Done a) -> tr w (k a) [] o' -> tr w (cbind m k) l o'.
Proof. intros H1 H2. rewrite <- (app_nil_r l). eapply t_pure; eassumption. Qed.

Lemma t_assert {B} w b p (k : unit -> checked B) l o' :
  tr w (k tt) l (o' tt) -> tr w (cbind (Fine (assert b p)) k) (guarding b l) (bind (assert b p) o').
Proof. intros H; unfold assert, guarding; destruct b; [exact H | reflexivity]. Qed.
Lemma t_skip {A B} w (a : A) (k : A -> checked B) l o' : tr w (k a) l (o' a) -> tr w (cbind (Fine (Done a)) k) l (bind (Done a) o').
Proof. intros H; exact H. Qed.
Lemma t_debug {B} w dbg b p (k : unit -> checked B) l o' :
  tr w (k tt) l (o' tt) -> tr w (cbind (Fine (debug_assert dbg b p)) k) (guarding (in_debug dbg b) l) (bind (debug_assert dbg b p) o').
Proof. intros H; unfold assert, guarding, in_debug; destruct dbg, b; first [exact H | reflexivity]. Qed.
Lemma t_debug_m w dbg m l o p :
  tr w m l o -> tr w (cdebug_assert_m dbg m p) (when dbg l) (debug_assert_m dbg o p).
Proof.
  intros H; unfold cdebug_assert_m, debug_assert_m, when; destruct dbg; [|apply t_ret].
  apply t_bind_ret; [assumption | intros v; apply t_fine].
Qed.
(** A debug assertion whose condition is a number computed without panics. *)
Lemma t_debug_pure {B} w dbg m l b p (k : unit -> checked B) l' o' :
  tr w m l (Done b) -> tr w (k tt) l' (o' tt) ->
  tr w (cbind (cdebug_assert_m dbg m p) k) (when dbg l ++ guarding (in_debug dbg b) l') (bind (debug_assert dbg b p) o').
Proof.
  intros H1 H2. pose proof (t_debug_m w dbg m l (Done b) p H1) as H3. unfold tr in *. rewrite H3, forallb_app.
  destruct (forallb _ (when _ _)); [|reflexivity].
  unfold debug_assert_m, debug_assert, guarding, in_debug in *; destruct dbg, b; cbn; first [exact H2 | reflexivity].
Qed.

Lemma t_chk w z : tr w (chk w z) [Amt z] (Done z).
Proof. unfold tr, chk; cbn; destruct (fits w z); reflexivity. Qed.
Lemma t_time w z : tr w (chk 64 z) [Tim z] (Done z).
Proof. unfold tr, chk; cbn [forallb nfits]; destruct (fits 64 z); reflexivity. Qed.
Lemma t_count w z : tr w (count z) [Cnt z] (Done z).
Proof. unfold tr, count; cbn [forallb nfits]; destruct (fits_unsigned 64 z); reflexivity. Qed.
Lemma t_cadd w a b : tr w (cadd w a b) [Amt (a + b)] (Done (a + b)).
Proof. apply t_chk. Qed.
Lemma t_csub w a b : tr w (csub w a b) [Amt (a - b)] (Done (a - b)).
Proof. apply t_chk. Qed.
Lemma t_cneg w a : tr w (cneg w a) [Amt (- a)] (Done (- a)).
Proof. apply t_chk. Qed.
Lemma t_cabs w a : tr w (cabs w a) [Amt (Z.abs a)] (Done (Z.abs a)).
Proof. apply t_chk. Qed.
Lemma t_cmul w s a b : tr w (cmul w s a b) [Amt (dmul s a b)] (Done (dmul s a b)).
Proof. apply t_chk. Qed.
Lemma t_cdiv w s a b : tr w (cdiv w s a b) (n_div s a b) (ddiv s a b).
Proof.
  unfold cdiv, n_div; rewrite <- (bind_id (ddiv s a b)) at 3.
  apply t_given; intros v; apply t_chk.
Qed.
Lemma t_crem w a b : tr w (crem w a b) (n_rem a b) (drem a b).
Proof.
  unfold tr, crem, n_rem; destruct (b =? - 1); [|reflexivity].
  cbn [forallb nfits andb]. destruct (fits w (- a)); reflexivity.
Qed.

Create HintDb trs.
#[local] Hint Resolve t_ret t_fine t_chk t_time t_count t_cadd t_csub t_cneg t_cabs t_cmul t_cdiv t_crem : trs.
Ltac known := solve [eauto 3 with trs].

Ltac tgo :=
  match goal with
  | |- tr _ (cbind (Fine (assert _ _)) _) (guarding _ _) (bind (assert _ _) _) => apply t_assert
  | |- tr _ (cbind (Fine (debug_assert _ _ _)) _) (guarding _ _) (bind (debug_assert _ _ _) _) => apply t_debug
  | |- tr _ (cbind (cdebug_assert_m _ _ _) _) (when _ _ ++ guarding _ _) (bind (debug_assert _ _ _) _) => apply t_debug_pure; [try known|]
  | |- tr _ (cbind (cdebug_assert_m _ _ _) _) (when _ _ ++ given _ _) (bind (debug_assert_m _ _ _) _) => apply t_bind; [apply t_debug_m|intros ?]
  | |- tr _ (cbind (Fine _) _) (given _ _) (bind _ _) => apply t_given; intros ?
  | |- tr _ (cbind _ _) (_ ++ given _ _) (bind _ _) => apply t_bind; [known | intros ?]
  | |- tr _ (cbind _ _) (_ :: _) _ => eapply t_need; [known | cbv beta]
  | |- tr _ (cbind _ _) (_ ++ _) _ => eapply t_pure; [known | cbv beta]
  | |- tr _ (let '(_, _) := ?x in _) _ _ => destruct x
  | |- tr _ (if ?x then _ else _) _ (if ?x then _ else _) => destruct x
  | |- tr _ (match ?x with _ => _ end) _ (match ?x with _ => _ end) => destruct x
  | |- _ => known
  | |- tr _ (cbind _ _) _ (bind _ _) => apply t_bind_ret; [known | intros ?]
  | |- tr _ (cbind _ _) _ _ => eapply t_pure_ret; [known | cbv beta]
  end.
Ltac tall := repeat (tgo; cbv beta iota; cbn [when guarding is_ok negb]).

(** ** Currencies *)
Lemma t_convert w k s u p : tr w (w_convert_from w k s u p) (n_convert k s u p) (convert_from k s u p).
Proof. unfold w_convert_from, convert_from, n_convert; destruct k; [apply t_cmul | apply t_cdiv]. Qed.
#[local] Hint Resolve t_convert : trs.

Lemma t_pnl w k s a b q : tr w (w_pnl w k s a b q) (n_pnl k s a b q) (pnl k s a b q).
Proof.
  unfold w_pnl, pnl, n_pnl; destruct (q =? 0); [apply t_ret|]; destruct k; cbn [w_convert_from convert_from].
  - tall.
  - tall.
Qed.
#[local] Hint Resolve t_pnl : trs.

Lemma t_liq_long w s p mm : tr w (w_liquidation_price_long w s p mm) (n_liq_long s p mm) (Done (liquidation_price_long s p mm)).
Proof. unfold w_liquidation_price_long, liquidation_price_long, n_liq_long; tall. Qed.
Lemma t_liq_short w s p mm : tr w (w_liquidation_price_short w s p mm) (n_liq_short s p mm) (Done (liquidation_price_short s p mm)).
Proof. unfold w_liquidation_price_short, liquidation_price_short, n_liq_short; tall. Qed.

Lemma t_weighted w s p0 w0 p1 w1 :
  tr w (w_new_weighted_price w s p0 w0 p1 w1) (n_weighted s p0 w0 p1 w1) (new_weighted_price s p0 w0 p1 w1).
Proof. unfold w_new_weighted_price, new_weighted_price, n_weighted; tall. Qed.
#[local] Hint Resolve t_liq_long t_liq_short t_weighted : trs.

(** ** Accounting *)
Lemma t_balance w acc id : tr w (w_margin_balance_of w acc id) (n_balance acc id) (Done (margin_balance_of acc id)).
Proof. apply t_csub. Qed.
Lemma t_balance_of w acc id : tr w (w_margin_balance_of w acc id) [Amt (margin_balance_of acc id)] (Done (margin_balance_of acc id)).
Proof. apply t_csub. Qed.

Lemma t_sum w l : forall a, tr w (w_sum w a l) (n_sums a l) (Done (fold_left Z.add l a)).
Proof. induction l as [|x l IH]; intros a; cbn [w_sum fold_left n_sums]; tall. Qed.

Lemma t_equation w dbg a : tr w (w_accounting_equation w dbg a) (n_equation dbg a) (debug_assert_accounting_equation dbg a).
Proof.
  unfold w_accounting_equation, debug_assert_accounting_equation, n_equation; cbv zeta.
  match goal with |- tr _ (cdebug_assert_m _ ?m _) _ (debug_assert _ ?b ?p) => apply (t_debug_m w dbg m _ (Done b) p) end.
  eapply t_pure; [apply t_sum|]; eapply t_pure_ret; [apply t_sum|].
  cbn [map fold_left]; rewrite !Z.add_0_l; apply t_ret.
Qed.
#[local] Hint Resolve t_balance t_balance_of t_equation : trs.

Lemma t_accounting_new w dbg start : tr w (w_accounting_new w dbg start) (n_accounting_new dbg start) (accounting_new dbg start).
Proof.
  unfold w_accounting_new, accounting_new, n_accounting_new; cbv zeta.
  eapply t_need; [exact (t_cadd w 0 start)|]; eapply t_need; [exact (t_cadd w 0 start)|]; cbv zeta.
  change (post_debit {| ta_debits := 0; ta_credits := 0 |} start) with {| ta_debits := 0 + start; ta_credits := 0 |}.
  change (post_credit {| ta_debits := 0; ta_credits := 0 |} start) with {| ta_debits := 0; ta_credits := 0 + start |}.
  rewrite Z.add_0_l.
  apply t_bind_ret; [apply t_equation | intros _; apply t_ret].
Qed.

Lemma t_transfer w dbg acc d c amt : tr w (w_transfer w dbg acc d c amt) (n_transfer dbg acc d c amt) (transfer dbg acc d c amt).
Proof.
  unfold w_transfer, n_transfer, transfer.
  destruct (transaction_new d c amt) as [tx|p] eqn:Et; [|reflexivity].
  assert (tx_debit tx = d /\ tx_credit tx = c /\ tx_amount tx = amt) as (<- & <- & <-).
  { unfold transaction_new in Et.
    repeat match type of Et with
           | bind (assert ?b _) _ = _ => destruct b; cbn [assert bind] in Et; [|discriminate]
           | Done _ = Done _ => injection Et as <-; auto
           end. }
  cbn [cbind given bind].
  unfold create_margin_transfer; cbv zeta.
  eapply t_need; [apply t_cadd|]; eapply t_need; [apply t_cadd|].
  unfold post_debit, post_credit. cbn [debug_assert_accounting_equation debug_assert_m debug_assert bind given].
  apply t_bind_ret; [apply t_equation | intros _; apply t_ret].
Qed.
#[local] Hint Resolve t_accounting_new t_transfer : trs.

(** ** Filters *)
Lemma t_limit_price w s f limit mark :
  tr w (w_validate_limit_price w s f limit mark) (n_limit_price s f limit mark) (validate_limit_price s f limit mark).
Proof.
  unfold w_validate_limit_price, validate_limit_price, n_limit_price; cbv zeta.
  destruct (limit <=? 0); cbn [orb]; [apply t_ret|].
  destruct (match pf_max f with Some m => m <? limit | None => false end); cbn [orb]; [apply t_ret|].
  destruct (match pf_min f with Some m => limit <? m | None => false end); cbn [orb]; [apply t_ret|].
  tgo. tgo. destruct (negb _); [apply t_ret|]. tgo. destruct (_ && _); [apply t_ret|].
  eapply t_need; [apply t_cmul|]. destruct (_ && _); apply t_ret.
Qed.

Lemma t_step_size w step price : tr w (w_enforce_step_size w step price) (n_rem price step) (enforce_step_size step price).
Proof. unfold w_enforce_step_size, enforce_step_size; tall. Qed.

Lemma t_quantity w f q : tr w (w_validate_order_quantity w f q) (n_quantity f q) (validate_order_quantity f q).
Proof.
  unfold w_validate_order_quantity, validate_order_quantity, n_quantity; cbv zeta.
  destruct (q =? 0); cbn [orb]; [apply t_ret|].
  destruct (match qf_max f with Some m => m <? q | None => false end); cbn [orb]; [apply t_ret|].
  destruct (match qf_min f with Some m => q <? m | None => false end); cbn [orb]; [apply t_ret|].
  tgo. apply t_bind_ret; [apply t_crem|]. intros r. destruct (negb _); apply t_ret.
Qed.
#[local] Hint Resolve t_limit_price t_quantity : trs.

(** ** Position *)
Lemma t_inner_new w c acc q p f : tr w (w_inner_new w c acc q p f) (n_inner_new c acc q p) (inner_new c acc q p f).
Proof. unfold w_inner_new, inner_new, n_inner_new; cbv zeta; tall. Qed.

Lemma t_increase w c i acc q p f :
  tr w (w_increase_contracts w c i acc q p f) (n_increase c i acc q p f) (increase_contracts c i acc q p f).
Proof. unfold w_increase_contracts, increase_contracts, n_increase; cbv zeta; tall. Qed.
#[local] Hint Resolve t_inner_new t_increase : trs.

Lemma t_realise w dbg acc profit :
  tr w (match profit ?= 0 with
        | Gt => w_transfer w dbg acc WALLET TREASURY profit
        | Lt => loss <~ cabs w profit ;; w_transfer w dbg acc TREASURY WALLET loss
        | Eq => ret acc
        end) (n_realise dbg acc profit)
       (match profit ?= 0 with
        | Gt => transfer dbg acc WALLET TREASURY profit
        | Lt => transfer dbg acc TREASURY WALLET (Z.abs profit)
        | Eq => Done acc
        end).
Proof.
  unfold n_realise. destruct (Z.compare_spec profit 0) as [E|E|E].
  - replace (0 <? profit) with false by lia. replace (profit <? 0) with false by lia. apply t_ret.
  - replace (0 <? profit) with false by lia. replace (profit <? 0) with true by lia.
    replace (- profit) with (Z.abs profit) by lia. tall.
  - replace (0 <? profit) with true by lia. tall.
Qed.
Lemma realised_eq dbg acc profit :
  match profit ?= 0 with
  | Gt => transfer dbg acc WALLET TREASURY profit
  | Lt => transfer dbg acc TREASURY WALLET (Z.abs profit)
  | Eq => Done acc
  end = realised dbg acc profit.
Proof.
  unfold realised. destruct (Z.compare_spec profit 0) as [E|E|E].
  - replace (0 <? profit) with false by lia. replace (profit <? 0) with false by lia. reflexivity.
  - replace (0 <? profit) with false by lia. replace (profit <? 0) with true by lia.
    replace (- profit) with (Z.abs profit) by lia. reflexivity.
  - replace (0 <? profit) with true by lia. reflexivity.
Qed.

Lemma t_decrease w c i acc q p long f :
  tr w (w_decrease_contracts w c i acc q p long f) (n_decrease c i acc q p long f) (decrease_contracts c i acc q p long f).
Proof.
  unfold w_decrease_contracts, decrease_contracts, n_decrease; cbv zeta.
  apply t_assert. destruct (q <=? pi_qty i) eqn:Hq; [|reflexivity]. apply t_assert.
  tgo. tgo.
  replace (0 <=? pi_qty i - q) with true by lia.
  replace (debug_assert (c_dbg c) true PDecQtyNegDebug) with (Done tt) by (destruct (c_dbg c); reflexivity).
  apply t_skip.
  eapply t_pure with (a := if long then q else - q); [destruct long; cbn; known|].
  apply t_bind; [apply t_pnl|]; intros profit.
  rewrite <- realised_eq.
  apply t_bind; [apply t_realise|]; intros acc1.
  tgo. tgo. tgo. tgo.
  unfold when. destruct (0 <? pi_fees i + f); tall.
Qed.
#[local] Hint Resolve t_decrease : trs.

Lemma t_no_margin w dbg acc p (l : list number) :
  tr w (w_no_position_margin w dbg acc p) (when dbg (n_balance acc POSITION_MARGIN))
    (debug_assert dbg (margin_balance_of acc POSITION_MARGIN =? 0) p).
Proof.
  unfold w_no_position_margin.
  apply (t_debug_m w dbg _ _ (Done (margin_balance_of acc POSITION_MARGIN =? 0)) p). tall.
Qed.

Lemma t_against w c i acc q p long f (mk nk : position_inner -> position) :
  tr w (match q ?= pi_qty i with
        | Lt => '(i', acc1) <~ w_decrease_contracts w c i acc q p long f ;; ret (mk i', acc1)
        | Eq => '(i', acc1) <~ w_decrease_contracts w c i acc q p long f ;;
                _ <~ w_no_position_margin w (c_dbg c) acc1 PCloseMarginDebug ;; ret (Neutral, acc1)
        | Gt => n <~ csub w q (pi_qty i) ;;
                '(i', acc1) <~ w_decrease_contracts w c i acc (pi_qty i) p long f ;;
                _ <~ Fine (assert (pi_qty i' =? 0) PFlipQty) ;;
                left <~ w_margin_balance_of w acc1 POSITION_MARGIN ;;
                _ <~ Fine (assert (left =? 0) PFlipMargin) ;;
                '(j, acc2) <~ w_inner_new w c acc1 n p 0 ;; ret (nk j, acc2)
        end) (n_against c i acc q p long f)
       (match q ?= pi_qty i with
        | Lt => '(i', acc1) <- decrease_contracts c i acc q p long f ;; Done (mk i', acc1)
        | Eq => '(i', acc1) <- decrease_contracts c i acc q p long f ;;
                _ <- debug_assert (c_dbg c) (margin_balance_of acc1 POSITION_MARGIN =? 0) PCloseMarginDebug ;; Done (Neutral, acc1)
        | Gt => '(i', acc1) <- decrease_contracts c i acc (pi_qty i) p long f ;;
                _ <- assert (pi_qty i' =? 0) PFlipQty ;;
                _ <- assert (margin_balance_of acc1 POSITION_MARGIN =? 0) PFlipMargin ;;
                '(j, acc2) <- inner_new c acc1 (q - pi_qty i) p 0 ;; Done (nk j, acc2)
        end).
Proof.
  unfold n_against. destruct (Z.compare_spec q (pi_qty i)) as [E|E|E].
  - replace (q <? pi_qty i) with false by lia. replace (q =? pi_qty i) with true by lia.
    apply t_bind; [known|]. intros [i' acc1].
    apply t_bind_ret; [apply t_no_margin; exact [] | intros _; apply t_ret].
  - replace (q <? pi_qty i) with true by lia.
    apply t_bind_ret; [known|]. intros [i' acc1]; apply t_ret.
  - replace (q <? pi_qty i) with false by lia. replace (q =? pi_qty i) with false by lia.
    tgo. apply t_bind; [known|]. intros [i' acc1]. tgo. tgo. tgo.
    apply t_bind_ret; [known|]. intros [j acc2]; apply t_ret.
Qed.

Lemma t_change w c pos acc q p sd f :
  tr w (w_change_position w c pos acc q p sd f) (n_change c pos acc q p sd f) (change_position c pos acc q p sd f).
Proof.
  unfold w_change_position, change_position, n_change; cbv zeta.
  apply t_debug. destruct pos as [|i|i].
  - replace (match sd with Buy | Sell => _ end) with
      (when (c_dbg c) (n_balance acc POSITION_MARGIN) ++
       guarding (in_debug (c_dbg c) (margin_balance_of acc POSITION_MARGIN =? 0)) (n_inner_new c acc q p)) by (destruct sd; reflexivity).
    unfold w_no_position_margin. apply t_debug_pure; [tall|].
    apply t_bind_ret; [known|]. intros [i acc1]. destruct sd; apply t_ret.
  - destruct sd.
    + apply t_bind_ret; [known|]. intros [i' acc1]; apply t_ret.
    + apply (t_against w c i acc q p true f Long Short).
  - destruct sd.
    + apply (t_against w c i acc q p false f Short Long).
    + apply t_bind_ret; [known|]. intros [i' acc1]; apply t_ret.
Qed.
#[local] Hint Resolve t_change : trs.

(** ** Limit orders *)
Lemma t_total w o : tr w (w_lo_total_quantity w o) (n_total o) (lo_total_quantity o).
Proof.
  unfold w_lo_total_quantity, lo_total_quantity, n_total; cbv zeta.
  eapply t_pure_ret with (a := match lo_filled o with Unfilled => lo_rem o | FilledQ cum _ => lo_rem o + cum end).
  - destruct (lo_filled o); tall.
  - tall.
Qed.

Lemma t_order_fill w s o q ts : tr w (w_order_fill w s o q ts) (n_fill s o q) (order_fill s o q ts).
Proof.
  unfold w_order_fill, order_fill, n_fill; cbv zeta. tgo. tgo. destruct (lo_filled o).
  - tgo. destruct (_ =? _); apply t_ret.
  - tgo. tgo. tgo. destruct (_ =? _); apply t_ret.
Qed.
#[local] Hint Resolve t_total t_order_fill : trs.

(** ** Order margin *)
Lemma t_neg_all w l : tr w (w_neg_all w l) (map (fun x => Amt (- fst x)) l) (Done tt).
Proof. induction l as [|x l IH]; cbn [w_neg_all map]; tall. Qed.

Lemma t_sort_keys w l : tr w (w_sort_keys w l) (n_keys l) (Done tt).
Proof.
  unfold w_sort_keys, n_keys; destruct l as [|x [|y l]]; [apply t_ret | apply t_ret | apply t_neg_all].
Qed.

Lemma umin_min a b : umin a b = Z.min a b.
Proof. unfold umin; destruct (a <? b) eqn:E; lia. Qed.
Lemma umax_max a b : umax a b = Z.max a b.
Proof. unfold umax; destruct (b <? a) eqn:E; lia. Qed.

Lemma t_offset w l : forall out, tr w (w_offset_orders w out l) (n_offset out l) (Done (offset_orders out l)).
Proof.
  induction l as [|[p q] l IH]; intros out; cbn [w_offset_orders offset_orders n_offset]; [apply t_ret|].
  unfold when; destruct (0 <? out); [|apply t_ret].
  rewrite umin_min. tgo. tgo. eapply t_pure_ret; [apply IH|]. apply t_ret.
Qed.
#[local] Hint Resolve t_sort_keys t_offset : trs.

Lemma t_orders_value w k s l : forall sum,
  tr w (w_orders_value w k s sum l) (n_value k s sum l) (v <- orders_value k s l ;; Done (sum + v)).
Proof.
  induction l as [|[p q] l IH]; intros sum; cbn [w_orders_value orders_value n_value].
  - cbn [bind]; rewrite Z.add_0_r; apply t_ret.
  - replace (bind (bind (convert_from k s q p) _) _) with
      (v <- convert_from k s q p ;; vs <- orders_value k s l ;; Done (sum + v + vs)).
    + apply t_bind; [apply t_convert|]. intros v. tgo. apply IH.
    + destruct (convert_from k s q p) as [v|pn]; cbn [bind]; [|reflexivity].
      destruct (orders_value k s l) as [vs|pn]; cbn [bind]; [|reflexivity].
      f_equal; ring.
Qed.
Lemma t_value w k s l : tr w (w_orders_value w k s 0 l) (n_value k s 0 l) (orders_value k s l).
Proof.
  generalize (t_orders_value w k s l 0).
  destruct (orders_value k s l); cbn [bind]; auto.
Qed.
#[local] Hint Resolve t_value : trs.

Lemma with_new_eq sd book o :
  side_orders sd book ++ match o with
                         | Some x => if side_eq_dec (lo_side x) sd then [(lo_price x, lo_rem x)] else []
                         | None => []
                         end = with_new sd book o.
Proof.
  unfold with_new, side_orders. rewrite filter_app, map_app. f_equal.
  destruct o as [x|]; cbn [filter map]; [|reflexivity]. destruct (side_eq_dec (lo_side x) sd); reflexivity.
Qed.

Lemma t_om_internal w c book pos o :
  tr w (w_order_margin_internal w c book pos o) (n_order_margin c book pos o) (order_margin_internal c book pos o).
Proof.
  unfold w_order_margin_internal, order_margin_internal, n_order_margin; cbv zeta. rewrite !with_new_eq.
  tgo. tgo. destruct pos as [|i|i].
  - do 2 (eapply t_pure; [apply t_ret|]). tgo. tgo. rewrite umax_max. apply t_cmul.
  - eapply t_pure; [apply t_ret|]. tgo. tgo. tgo. rewrite umax_max. apply t_cmul.
  - tgo. eapply t_pure; [apply t_ret|]. tgo. tgo. rewrite umax_max. apply t_cmul.
Qed.
Lemma t_om w c book pos : tr w (w_order_margin w c book pos) (n_order_margin c book pos None) (order_margin c book pos).
Proof. apply t_om_internal. Qed.
Lemma t_om_with w c book pos o :
  tr w (w_order_margin_with_order w c book pos o) (n_order_margin c book pos (Some o)) (order_margin_with_order c book pos o).
Proof. apply t_om_internal. Qed.
#[local] Hint Resolve t_om t_om_with : trs.

(** ** Risk engine *)
Lemma t_open w c q p wallet : tr w (w_check_market_open w c q p wallet) (n_open c q p) (check_market_open c q p wallet).
Proof.
  unfold w_check_market_open, check_market_open, n_open; cbv zeta. tgo. tgo. tgo. eapply t_need; [apply t_cadd|]. apply t_ret.
Qed.
Lemma t_reduce w c i pm q p wallet :
  tr w (w_check_market_reduce w c i pm q p wallet) (n_reduce c i pm q p wallet) (check_market_reduce c i pm q p wallet).
Proof.
  unfold w_check_market_reduce, check_market_reduce, n_reduce, n_open; cbv zeta.
  destruct (Z.leb_spec q (pi_qty i)) as [E|E].
  { replace (pi_qty i <? q) with false by lia. apply t_ret. }
  replace (pi_qty i <? q) with true by lia. cbn [when].
  tgo.
  match goal with |- tr _ _ ((?l ++ given ?o ?f) ++ given ?o ?g) _ =>
    replace ((l ++ given o f) ++ given o g) with (l ++ given o (fun a => f a ++ g a))
      by (rewrite <- app_assoc; f_equal; destruct o; reflexivity) end.
  tgo. cbn [app]. tgo. tgo. tgo. eapply t_need; [apply t_cadd|]. apply t_ret.
Qed.
#[local] Hint Resolve t_open t_reduce : trs.

Lemma t_market_check w c pos pm sd q p wallet :
  tr w (w_check_market_order w c pos pm sd q p wallet) (n_market_check c pos pm sd q p wallet)
    (check_market_order c pos pm sd q p wallet).
Proof. unfold w_check_market_order, check_market_order, n_market_check; destruct sd, pos; known. Qed.
Lemma t_limit_check w c pos o wallet book :
  tr w (w_check_limit_order w c pos o wallet book) (n_limit_check c pos o wallet book) (check_limit_order c pos o wallet book).
Proof.
  unfold w_check_limit_order, check_limit_order, n_limit_check. tgo. tgo. eapply t_need; [apply t_cadd|]. apply t_ret.
Qed.
Lemma t_mm w c bid ask pos :
  tr w (w_check_maintenance_margin w c bid ask pos) (n_maintenance c pos) (Done (check_maintenance_margin c bid ask pos)).
Proof.
  unfold w_check_maintenance_margin, check_maintenance_margin, n_maintenance; cbv zeta; destruct pos as [|i|i]; [apply t_ret | |];
    (eapply t_pure_ret; [known | apply t_ret]).
Qed.
#[local] Hint Resolve t_market_check t_limit_check t_mm : trs.

(** ** Market updates *)
Lemma t_mid w m : tr w (w_mid_price w m) (n_mid m) (Done (mid_price m)).
Proof. unfold w_mid_price, mid_price, n_mid. tgo. apply t_chk. Qed.
#[local] Hint Resolve t_mid : trs.

Lemma t_and_ret {E A B} w (r : result E A) (k : checked (result E B)) l o :
  tr w k l o -> tr w (w_and_then (ret r) k) (when (is_ok r) l) (and_then (Done r) o).
Proof. intros H. unfold w_and_then, and_then, when. destruct r; [exact H | reflexivity]. Qed.

Lemma t_and_step {B} w step p (k : checked (result filter_error B)) l o :
  tr w k l o -> tr w (w_and_then (w_enforce_step_size w step p) k)
    (n_rem p step ++ given (drem p step) (fun r => when (r =? 0) l)) (and_then (enforce_step_size step p) o).
Proof.
  intros H. unfold w_and_then, and_then, w_enforce_step_size, enforce_step_size.
  pose proof (t_crem w p step) as R. unfold tr in *. rewrite R, forallb_app.
  destruct (forallb _ (n_rem p step)); [|reflexivity].
  destruct (drem p step) as [r|pn]; cbn [cbind bind given andb]; [|reflexivity].
  destruct (r =? 0); cbn [negb when]; [exact H | reflexivity].
Qed.

Lemma t_step_last w step p :
  tr w (w_enforce_step_size w step p) (n_rem p step ++ given (drem p step) (fun r => when (r =? 0) [])) (enforce_step_size step p).
Proof.
  replace (_ ++ _) with (n_rem p step); [apply t_step_size|].
  destruct (drem p step) as [r|]; cbn [given when]; [destruct (r =? 0)|]; symmetry; apply app_nil_r.
Qed.

Lemma when_and a b l : when (a && b) l = when a (when b l).
Proof. destruct a; reflexivity. Qed.
Lemma when_true l : when true l = l.
Proof. reflexivity. Qed.

Ltac tand := repeat first [apply t_and_ret | apply t_and_step]; try apply t_ret; try apply t_step_last.

Lemma t_validate_bba w f b : tr w (w_validate_bba w f b) (n_prices f [bb_bid b; bb_ask b]) (validate_bba f b).
Proof.
  unfold w_validate_bba, validate_bba, n_prices, no_less, no_more, n_steps. cbn [forallb].
  rewrite ?when_and, ?when_true. tand.
Qed.
Lemma t_validate_trade w f t : tr w (w_validate_trade w f t) (n_prices f [tr_price t]) (validate_trade f t).
Proof.
  unfold w_validate_trade, validate_trade, n_prices, no_less, no_more, n_steps. cbn [forallb].
  rewrite ?when_and, ?when_true. tand.
Qed.
Lemma t_validate_candle w f k : tr w (w_validate_candle w f k) (n_prices f [cd_bid k; cd_ask k; cd_low k; cd_high k]) (validate_candle f k).
Proof.
  unfold w_validate_candle, validate_candle, n_prices, no_less, no_more, n_steps. cbn [forallb].
  rewrite ?when_and, ?when_true. tand.
  all: unfold w_and_then, and_then, tr; repeat match goal with |- context [enforce_bid_ask_spread ?a ?b] => destruct (enforce_bid_ask_spread a b) end; reflexivity.
Qed.
#[local] Hint Resolve t_validate_bba t_validate_trade t_validate_candle : trs.
Lemma t_validate w f u : tr w (w_validate_market_update w f u) (n_validate f u) (validate_market_update f u).
Proof. unfold w_validate_market_update, validate_market_update, n_validate; destruct u; known. Qed.
#[local] Hint Resolve t_validate : trs.

Lemma t_market_update w dbg f u m :
  tr w (w_market_update_state w dbg f u m) (n_market_update dbg f u m) (market_update_state dbg f u m).
Proof.
  unfold w_market_update_state, market_update_state, n_market_update; cbv zeta.
  apply t_bind; [apply t_debug_m; tall|]; intros _.
  replace (ms_step m + 1) with (ms_step (update_market_state u m) + 1) by (destruct u; reflexivity).
  eapply t_need; [apply t_count | apply t_ret].
Qed.

Lemma t_any_valid w f l : tr w (w_any_valid w f l) (n_any_valid f l) (any_valid f l).
Proof.
  induction l as [|t l IH]; cbn [w_any_valid any_valid n_any_valid]; [apply t_ret|].
  apply t_bind; [known|]. intros v. destruct (is_ok v); [apply t_ret | exact IH].
Qed.
#[local] Hint Resolve t_market_update t_any_valid : trs.

Lemma t_aggregate_loop w l : forall last sum,
  tr w (w_aggregate_loop w last sum l) (n_sums sum (map snd l)) (Done (aggregate_loop last sum l)).
Proof.
  induction l as [|[p q] l IH]; intros last sum; cbn [w_aggregate_loop aggregate_loop n_sums map snd]; [apply t_ret|].
  tgo. destruct (p =? last); [apply IH|]. eapply t_pure_ret; [apply IH | apply t_ret].
Qed.
Lemma t_aggregate w l : tr w (w_aggregate w l) (n_sums 0 (map snd l)) (Done (aggregate l)).
Proof. unfold w_aggregate, aggregate; destruct l as [|[p q] l]; [apply t_ret | apply t_aggregate_loop]. Qed.
#[local] Hint Resolve t_aggregate : trs.

Lemma t_smart w dbg ts b f : tr w (w_smart_candle_new w dbg ts b f) (n_smart dbg ts b f) (smart_candle_new dbg ts b f).
Proof.
  unfold w_smart_candle_new, smart_candle_new, n_smart; cbv zeta; destruct ts as [|t0 ts]; [apply t_fine|].
  apply t_bind; [apply t_debug_m; known|]; intros _.
  tgo. tgo. tgo. tgo. tgo. eapply t_pure_ret; [apply t_aggregate|]. apply t_ret.
Qed.
#[local] Hint Resolve t_smart : trs.
Lemma t_build w dbg r : tr w (w_build_update w dbg r) (n_build dbg r) (build_update dbg r).
Proof. unfold w_build_update, build_update, n_build; destruct r; try apply t_ret. apply t_bind_ret; [known | intros sc; apply t_ret]. Qed.

(** ** Tracker *)
Lemma t_tracker_add w t a b c d e f g h :
  tr w (w_tracker_add w t a b c d e f g h) (n_tracker (tracker_add t a b c d e f g h)) (Done (tracker_add t a b c d e f g h)).
Proof.
  unfold w_tracker_add, n_tracker. set (t' := tracker_add t a b c d e f g h).
  eapply t_need; [exact (t_count w (tk_sub_limit t'))|].
  eapply t_need; [exact (t_count w (tk_cancelled t'))|].
  eapply t_need; [exact (t_count w (tk_fill_events t'))|].
  eapply t_need; [exact (t_count w (tk_fully_filled t'))|].
  eapply t_need; [exact (t_count w (tk_sub_market t'))|].
  eapply t_need; [exact (t_count w (tk_filled_market t'))|].
  eapply t_need; [exact (t_chk w (tk_buy_volume t'))|].
  eapply t_need; [exact (t_chk w (tk_sell_volume t'))|]. apply t_ret.
Qed.
Lemma t_log_submission w t :
  tr w (w_log_limit_order_submission w t) (n_tracker (log_limit_order_submission t)) (Done (log_limit_order_submission t)).
Proof. apply t_tracker_add. Qed.
Lemma t_log_cancellation w t :
  tr w (w_log_limit_order_cancellation w t) (n_tracker (log_limit_order_cancellation t)) (Done (log_limit_order_cancellation t)).
Proof. apply t_tracker_add. Qed.
Lemma t_log_fill w t b : tr w (w_log_limit_order_fill w t b) (n_tracker (log_limit_order_fill t b)) (Done (log_limit_order_fill t b)).
Proof. apply t_tracker_add. Qed.
Lemma t_log_mfill w t : tr w (w_log_market_order_fill w t) (n_tracker (log_market_order_fill t)) (Done (log_market_order_fill t)).
Proof. apply t_tracker_add. Qed.
Lemma t_log_msub w t :
  tr w (w_log_market_order_submission w t) (n_tracker (log_market_order_submission t)) (Done (log_market_order_submission t)).
Proof. apply t_tracker_add. Qed.
#[local] Hint Resolve t_build t_tracker_add t_log_submission t_log_cancellation t_log_fill t_log_mfill t_log_msub : trs.

Lemma t_log_trade w c t sd p q : tr w (w_log_trade w c t sd p q) (n_trade c t sd p q) (log_trade c t sd p q).
Proof. unfold w_log_trade, log_trade, n_trade; tgo; tgo; destruct sd; known. Qed.
Lemma t_tracker_update w t m : tr w (w_tracker_update w t m) (n_mid m) (Done (tracker_update t m)).
Proof. unfold w_tracker_update; eapply t_pure_ret; [apply t_mid | apply t_ret]. Qed.
Lemma t_trigger w t ts :
  tr w (w_should_trigger t ts) (when (negb (tg_init t)) [Tim (tg_last t + tg_interval t)]) (Done (should_trigger t ts)).
Proof.
  unfold w_should_trigger; destruct (tg_init t); cbn [negb when]; [apply t_ret|].
  eapply t_need; [apply t_time | apply t_ret].
Qed.
#[local] Hint Resolve t_log_trade t_tracker_update t_trigger : trs.

(** ** Exchange *)
Lemma t_exchange_new w c t : tr w (w_exchange_new w c t) (n_new c) (exchange_new c t).
Proof. unfold w_exchange_new, exchange_new, n_new. tgo. eapply t_need; [apply t_time | apply t_ret]. Qed.

Lemma t_wallet w acc : tr w (w_assert_user_wallet_balance w acc) (n_balance acc WALLET) (assert_user_wallet_balance acc).
Proof. unfold w_assert_user_wallet_balance, assert_user_wallet_balance. eapply t_pure_ret; [known | apply t_fine]. Qed.
Lemma t_computed w c e : tr w (w_computed_order_margin w c e) (n_order_margin c (ex_om e) (ex_pos e) None) (computed_order_margin c e).
Proof. apply t_om. Qed.
Lemma t_empty w e : tr w (w_empty_margin w e) (n_empty e) (Done (empty_ok e)).
Proof. unfold w_empty_margin, n_empty, empty_ok; destruct (ex_active e); [eapply t_pure_ret; [known | apply t_ret] | apply t_ret]. Qed.
#[local] Hint Resolve t_exchange_new t_wallet t_computed t_empty : trs.

Lemma t_sample w e :
  tr w (b <~ w_balances w e ;; _ <~ w_mid_price w (ex_ms e) ;; sum <~ w_balances_sum w b ;;
        ret (set_trk e (tracker_sample (ex_trk e) sum)))
    (n_balances e) (Done (set_trk e (tracker_sample (ex_trk e) (balances_sum (balances e))))).
Proof.
  unfold n_balances; cbv zeta.
  eapply t_pure.
  { unfold w_balances. eapply t_need; [known|]. eapply t_need; [known|]. eapply t_need; [known|]. apply t_ret. }
  eapply t_pure; [known|]. eapply t_pure_ret; [|apply t_ret].
  unfold w_balances_sum, balances_sum. cbn [ub_wallet ub_pm ub_om balances].
  eapply t_need; [known|]. known.
Qed.

Lemma t_settle w c e o : tr w (w_settle_filled_market_order w c e o) (n_settle c e o) (settle_filled_market_order c e o).
Proof.
  unfold w_settle_filled_market_order, settle_filled_market_order, n_settle; cbv zeta.
  tgo. tgo. tgo. tgo. apply t_bind; [known|]. intros [pos acc]. tgo. apply t_bind_ret; [known | intros t2; apply t_ret].
Qed.
#[local] Hint Resolve t_settle : trs.

Lemma t_submit_market w c e o : tr w (w_submit_market_order w c e o) (n_market c e o) (submit_market_order c e o).
Proof.
  unfold w_submit_market_order, submit_market_order, n_market; cbv zeta.
  eapply t_pure; [apply t_log_msub|]. apply t_bind; [known|]. intros [v|err]; cbn [is_ok when]; [|apply t_ret].
  eapply t_need; [apply t_count|]. eapply t_need; [apply t_balance_of|]. eapply t_need; [apply t_balance_of|].
  apply t_bind; [known|]. intros [r|err]; cbn [is_ok when]; [|apply t_ret].
  apply t_bind_ret; [apply t_settle | intros e3; apply t_ret].
Qed.
#[local] Hint Resolve t_submit_market : trs.

Lemma t_liquidate w c e : tr w (w_liquidate w c e) (n_liquidate c e) (liquidate c e).
Proof.
  unfold w_liquidate, liquidate, n_liquidate. destruct (ex_pos e) as [|i|i]; [apply t_fine | |];
    (destruct (market_new _ (pi_qty i) 0) as [o|err]; [|apply t_fine]; apply t_skip;
     apply t_bind_ret; [known|]; intros [e1 [r|err]]; [apply t_ret | apply t_fine]).
Qed.

Lemma t_append w c e o : tr w (w_append_limit_order w c e o) (n_append c e o) (append_limit_order c e o).
Proof.
  unfold w_append_limit_order, append_limit_order, n_append; cbv zeta.
  apply t_given. intros [om' [r|err]]; cbn [is_ok when]; [|apply t_ret].
  change (ex_active (set_om e om')) with (ex_active e).
  destruct (book_insert active_capacity (ex_active e) o) as [act' [r'|err]]; cbn [is_ok when]; [|apply t_ret].
  apply t_bind; [exact (t_om w c om' (ex_pos e))|]. intros new_om.
  eapply t_need; [apply t_balance_of|].
  change (margin_balance_of (ex_acc (set_active (set_om e om') act')) ORDER_MARGIN) with (margin_balance_of (ex_acc e) ORDER_MARGIN).
  change (ex_acc (set_active (set_om e om') act')) with (ex_acc e).
  set (old := margin_balance_of (ex_acc e) ORDER_MARGIN).
  destruct (Z.compare_spec new_om old) as [E|E|E].
  - replace (new_om =? old) with true by lia. apply t_ret.
  - replace (new_om =? old) with false by lia. cbn [negb when]. replace (Z.abs (new_om - old)) with (old - new_om) by lia.
    tgo. apply t_bind; [known|]. intros acc. apply t_assert. tgo. apply t_assert.
    apply t_bind_ret; [known | intros _; apply t_ret].
  - replace (new_om =? old) with false by lia. cbn [negb when]. replace (Z.abs (new_om - old)) with (new_om - old) by lia.
    tgo. apply t_bind; [known|]. intros acc. apply t_assert. tgo. apply t_assert.
    apply t_bind_ret; [known | intros _; apply t_ret].
Qed.
#[local] Hint Resolve t_liquidate t_append : trs.

Lemma t_submit_limit w c e o : tr w (w_submit_limit_order w c e o) (n_limit c e o) (submit_limit_order c e o).
Proof.
  unfold w_submit_limit_order, submit_limit_order, n_limit; cbv zeta.
  eapply t_pure; [apply t_log_submission|]. apply t_bind; [known|]. intros [v|err]; cbn [is_ok when]; [|apply t_ret].
  eapply t_pure; [apply t_mid|].
  apply t_bind; [known|]. intros [p|err]; cbn [is_ok when]; [|apply t_ret].
  eapply t_need; [apply t_count|]. eapply t_need; [apply t_balance_of|].
  apply t_bind; [known|]. intros [r|err]; cbn [is_ok when]; [|apply t_ret].
  match goal with |- tr _ (if ?b then _ else _) (when (negb ?b1) _) (if ?b2 then _ else _) =>
    change b with b1; change b2 with b1; destruct b1; cbn [negb when]; [apply t_ret|] end.
  apply t_bind_ret; [apply t_append|]. intros [e3 [a|err]]; apply t_ret.
Qed.

Lemma t_release w c e old new_om :
  tr w (if new_om <? old then
          delta <~ csub w old new_om ;; acc <~ w_transfer w (c_dbg c) (ex_acc e) WALLET ORDER_MARGIN delta ;; ret (set_acc e acc)
        else ret e)
    (n_release (c_dbg c) e old new_om) (released (c_dbg c) e old new_om).
Proof.
  unfold n_release, released. destruct (new_om <? old); cbn [when]; [|apply t_ret].
  tgo. apply t_bind_ret; [known | intros acc; apply t_ret].
Qed.

Lemma released_keeps dbg e old new_om e3 :
  released dbg e old new_om = Done e3 -> ex_trk e3 = ex_trk e /\ ex_om e3 = ex_om e /\ ex_active e3 = ex_active e.
Proof.
  unfold released. destruct (new_om <? old).
  - destruct (transfer _ _ _ _ _); cbn [bind]; [|discriminate]. intros [= <-]. auto.
  - intros [= <-]. auto.
Qed.
Lemma t_bind' {A B} w (m : checked A) l o (k : A -> checked B) l' o' :
  tr w m l o -> (forall a, o = Done a -> tr w (k a) (l' a) (o' a)) -> tr w (cbind m k) (l ++ given o l') (bind o o').
Proof.
  unfold tr; intros -> H. rewrite forallb_app. destruct (forallb _ l); [|reflexivity].
  destruct o as [a|p]; cbn [cbind given bind andb]; [apply H; reflexivity | reflexivity].
Qed.

Lemma t_cancel w c e b : tr w (w_cancel_limit_order w c e b) (n_cancel c e b) (cancel_limit_order c e b).
Proof.
  unfold w_cancel_limit_order, cancel_limit_order, n_cancel; cbv zeta.
  eapply t_need; [apply t_balance_of|]. apply t_bind; [apply t_computed|]. intros comp. apply t_assert.
  assert (K : forall (removed : limit_order) act',
    tr w
      (om' <~ Fine (om_remove (ex_om (set_active e act')) b) ;;
       new_om <~ w_computed_order_margin w c (set_om (set_active e act') om') ;;
       _ <~ Fine (assert (new_om <=? margin_balance_of (ex_acc e) ORDER_MARGIN) PCancelMarginGrows) ;;
       e3 <~ (if new_om <? margin_balance_of (ex_acc e) ORDER_MARGIN then
                delta <~ csub w (margin_balance_of (ex_acc e) ORDER_MARGIN) new_om ;;
                acc <~ w_transfer w (c_dbg c) (ex_acc (set_om (set_active e act') om')) WALLET ORDER_MARGIN delta ;;
                ret (set_acc (set_om (set_active e act') om') acc)
              else ret (set_om (set_active e act') om')) ;;
       t <~ w_log_limit_order_cancellation w (ex_trk e3) ;;
       _ <~ Fine (assert (orders_eqb (ex_om (set_trk e3 t)) (ex_active (set_trk e3 t))) PCancelBooks) ;;
       b0 <~ w_empty_margin w (set_trk e3 t) ;;
       _ <~ Fine (assert b0 PCancelEmptyMargin) ;;
       ret (set_trk e3 t, Ok (E := error) removed))
      (om' <-- om_remove (ex_om e) b ;;
       new_om <-- order_margin c om' (ex_pos e) with n_order_margin c om' (ex_pos e) None ;;
       guard (new_om <=? margin_balance_of (ex_acc e) ORDER_MARGIN) ;;
       e3 <-- released (c_dbg c) (set_om (set_active e act') om') (margin_balance_of (ex_acc e) ORDER_MARGIN) new_om
         with n_release (c_dbg c) e (margin_balance_of (ex_acc e) ORDER_MARGIN) new_om ;;
       needs n_tracker (log_limit_order_cancellation (ex_trk e)) ;;
       guard (orders_eqb om' act') ;;
       n_empty e3)
      (om' <- om_remove (ex_om (set_active e act')) b ;;
       new_om <- computed_order_margin c (set_om (set_active e act') om') ;;
       _ <- assert (new_om <=? margin_balance_of (ex_acc e) ORDER_MARGIN) PCancelMarginGrows ;;
       e3 <- (if new_om <? margin_balance_of (ex_acc e) ORDER_MARGIN then
                acc <- transfer (c_dbg c) (ex_acc (set_om (set_active e act') om')) WALLET ORDER_MARGIN
                         (margin_balance_of (ex_acc e) ORDER_MARGIN - new_om) ;;
                Done (set_acc (set_om (set_active e act') om') acc)
              else Done (set_om (set_active e act') om')) ;;
       _ <- assert (orders_eqb (ex_om (set_trk e3 (log_limit_order_cancellation (ex_trk e3))))
                      (ex_active (set_trk e3 (log_limit_order_cancellation (ex_trk e3))))) PCancelBooks ;;
       _ <- assert (match ex_active (set_trk e3 (log_limit_order_cancellation (ex_trk e3))) with
                    | [] => margin_balance_of (ex_acc (set_trk e3 (log_limit_order_cancellation (ex_trk e3))))
                              ORDER_MARGIN =? 0
                    | _ => true end) PCancelEmptyMargin ;;
       Done (set_trk e3 (log_limit_order_cancellation (ex_trk e3)), Ok removed))).
  { intros removed act'. apply t_given. intros om'.
    apply t_bind; [exact (t_om w c om' (ex_pos e))|]. intros new_om. apply t_assert.
    set (old := margin_balance_of (ex_acc e) ORDER_MARGIN).
    apply t_bind'; [exact (t_release w c (set_om (set_active e act') om') old new_om)|].
    intros e3 He. change (released (c_dbg c) (set_om (set_active e act') om') old new_om = Done e3) in He.
    apply released_keeps in He. destruct He as (H1 & H2 & H3). cbn in H1, H2, H3. rewrite <- H1, <- H2, <- H3.
    eapply t_pure; [known|]. apply t_assert.
    eapply t_pure_ret; [exact (t_empty w (set_trk e3 (log_limit_order_cancellation (ex_trk e3))))|].
    unfold tr. cbn [forallb]. unfold empty_ok.
    match goal with |- context [assert ?b _] => destruct b end; reflexivity. }
  destruct b as [id|uid].
  - destruct (remove_by_order_id (ex_active e) id) as [[removed act']|]; [apply K | apply t_ret].
  - destruct (remove_by_user_order_id (ex_active e) uid) as [[removed act']|]; [apply K | apply t_ret].
Qed.
#[local] Hint Resolve t_submit_limit t_cancel : trs.

Lemma t_amend w c e id o : tr w (w_amend_limit_order w c e id o) (n_amend c e id o) (amend_limit_order c e id o).
Proof.
  unfold w_amend_limit_order, amend_limit_order, n_amend; cbv zeta.
  destruct (get_by_id (ex_active e) id) as [x|]; [|apply t_ret].
  apply t_bind; [known|]. intros total. tgo. tgo.
  destruct (_ <=? 0).
  - apply t_bind_ret; [known|]. intros [e1 [r|err]]; [apply t_ret | apply t_fine].
  - apply t_given. intros o'. apply t_bind; [known|]. intros [e1 [r|err]]; cbn [is_ok when]; [known | apply t_ret].
Qed.

Lemma t_booked w c e ids o filled :
  tr w (match filled with
        | Some fo =>
            t1 <~ w_log_limit_order_fill w (ex_trk e) true ;;
            om' <~ Fine (om_remove (ex_om e) (ByOrderId (lo_id o))) ;;
            ret (set_updates (set_om (set_trk e t1) om') (ex_updates e ++ [FullyFilled fo]), ids ++ [lo_id o])
        | None =>
            _ <~ Fine (debug_assert (c_dbg c) (0 <? lo_rem o) PFillRemDebug) ;;
            t1 <~ w_log_limit_order_fill w (ex_trk e) false ;;
            '(om', r) <~ Fine (om_update (c_max c) (ex_om e) o) ;;
            match r with
            | Err _ => Fine (Panic PFillUpdate)
            | Ok _ => ret (set_updates (set_om (set_trk e t1) om') (ex_updates e ++ [PartiallyFilled o]), ids)
            end
        end)
    (match filled with
     | Some _ => n_tracker (log_limit_order_fill (ex_trk e) true)
     | None => guarding (in_debug (c_dbg c) (0 <? lo_rem o)) (n_tracker (log_limit_order_fill (ex_trk e) false))
     end) (booked c e ids o filled).
Proof.
  unfold booked. destruct filled as [fo|].
  - eapply t_pure_ret; [known|]. apply t_bind_ret; [apply t_fine | intros om'; apply t_ret].
  - apply t_debug. eapply t_pure_ret; [known|]. apply t_bind_ret; [apply t_fine|].
    intros [om' [r|err]]; [apply t_ret | apply t_fine].
Qed.

Lemma t_fill_one w c u e ids o : tr w (w_fill_one w c u e ids o) (n_fill_one c u e ids o) (fill_one c u e ids o).
Proof.
  unfold w_fill_one, fill_one, n_fill_one; cbv zeta.
  apply t_given. intros [q|]; [|apply t_ret]. apply t_debug.
  eapply t_need; [apply t_balance_of|].
  apply t_bind; [apply t_debug_m; apply t_bind_ret; [known | intros comp; apply t_ret]|]. intros _.
  apply t_bind; [known|]. intros [o' filled].
  apply t_bind; [exact (t_booked w c e ids o' filled)|]. intros [e1 ids1].
  apply t_bind; [known|]. intros value. tgo.
  apply t_bind; [known|]. intros [pos acc].
  apply t_bind; [known|]. intros t2.
  apply t_bind; [known|]. intros new_om. apply t_debug.
  apply t_bind_ret; [exact (t_release w c _ _ new_om) | intros e4; apply t_ret].
Qed.
#[local] Hint Resolve t_amend t_fill_one : trs.

Lemma t_fill_loop w c u todo : forall e ids, tr w (w_fill_loop w c u e ids todo) (n_fill_loop c u e ids todo) (fill_loop c u e ids todo).
Proof.
  induction todo as [|o rest IH]; intros e ids; cbn [w_fill_loop fill_loop n_fill_loop]; [apply t_ret|].
  apply t_bind; [known|]. intros [[e1 ids1] o']. apply t_bind_ret; [apply IH|]. intros [[e2 ids2] rest']. apply t_ret.
Qed.
#[local] Hint Resolve t_fill_loop : trs.

Lemma t_check w c e u : tr w (w_check_active_orders w c e u) (n_check c e u) (check_active_orders c e u).
Proof.
  unfold w_check_active_orders, check_active_orders, n_check; cbv zeta.
  destruct (can_fill u); cbn [negb when]; [|apply t_ret].
  apply t_debug. apply t_bind; [apply t_fill_loop|]. intros [[e1 ids] arena].
  apply t_given. intros act. apply t_debug. apply t_debug_pure; [apply t_empty|].
  apply t_bind; [apply t_debug_m; eapply t_pure; [known|]; apply t_bind_ret; [known | intros comp; apply t_ret]|]. intros _.
  apply t_bind_ret; [known | intros _; apply t_ret].
Qed.
#[local] Hint Resolve t_check : trs.

Lemma t_update_state w c e u : tr w (w_update_state w c e u) (n_update c e u) (update_state c e u).
Proof.
  unfold w_update_state, update_state, n_update; cbv zeta.
  apply t_bind; [known|]. intros ms. eapply t_pure; [known|]. eapply t_pure; [exact (t_trigger w (ex_trig e) (update_ts u))|].
  change (ex_trig (set_trk (set_ms e ms) (tracker_update (ex_trk (set_ms e ms)) (ex_ms (set_ms e ms))))) with (ex_trig e).
  destruct (should_trigger (ex_trig e) (update_ts u)) as [trig fire].
  destruct fire; cbn [when].
  - eapply t_pure; [apply t_sample|].
    eapply t_pure; [apply t_mm|].
    cbn [set_trk set_trig set_ms ex_ms ex_pos].
    destruct (check_maintenance_margin _ _ _ _); cbn [is_ok];
      (apply t_bind_ret; [known | intros e5; apply t_ret]).
  - eapply t_pure; [apply t_ret|].
    eapply t_pure; [apply t_mm|].
    cbn [set_trk set_trig set_ms ex_ms ex_pos].
    destruct (check_maintenance_margin _ _ _ _); cbn [is_ok];
      (apply t_bind_ret; [known | intros e5; apply t_ret]).
Qed.
#[local] Hint Resolve t_update_state : trs.

Lemma t_map_out {S E A B} w (f : A -> B) (m : checked (S * result E A)) l n :
  tr w m l n -> tr w (w_map_out f m) l (map_out f n).
Proof. intros; unfold w_map_out, map_out; apply t_bind_ret; [assumption|]; intros [s r]; apply t_ret. Qed.
#[local] Hint Resolve t_map_out : trs.

Lemma t_step w c e o : tr w (w_step w c e o) (n_step c e o) (step c e o).
Proof.
  unfold w_step, step, n_step; destruct o.
  - apply t_bind; [known|]. intros u. known.
  - destruct (market_new _ _ _); [known | apply t_ret].
  - destruct (limit_new _ _ _ _); [known | apply t_ret].
  - known.
  - destruct (limit_new _ _ _ _); [known | apply t_ret].
  - apply t_bind; [known|]. intros u. apply t_bind_ret; [known | intros e1; apply t_ret].
Qed.
#[local] Hint Resolve t_step : trs.

Lemma t_run w c ops : forall e, tr w (w_run w c e ops) (n_run c e ops) (run c e ops).
Proof.
  induction ops as [|o ops IH]; intros e; cbn [w_run run n_run]; [apply t_ret|].
  apply t_bind; [known|]. intros [e1 r]. apply t_bind_ret; [apply IH|]. intros [e2 rs]. apply t_ret.
Qed.

Lemma t_play w c ops : tr w (w_play w c ops) (n_play c ops) (u_play c ops).
Proof.
  unfold w_play, u_play, n_play, w_init, init. apply t_bind; [|intros e0; apply t_run].
  apply t_given. intros t. known.
Qed.

(** ** In terms of [overflows_exactly] *)
Lemma nfits_iff w n : nfits w n = true <-> machine_integer w n.
Proof. destruct n; cbn [nfits machine_integer]; unfold fits, fits_unsigned, in_range; lia. Qed.
Lemma exactly {A} w (m : checked A) l o : tr w m l o -> overflows_exactly w m l o.
Proof.
  unfold tr, overflows_exactly. intros ->.
  assert (H : forallb (nfits w) l = true <-> Forall (machine_integer w) l).
  { rewrite forallb_forall, Forall_forall. split; intros H n Hn; specialize (H n Hn); apply nfits_iff; exact H. }
  destruct (forallb (nfits w) l); split; intros HF; try reflexivity.
  - exfalso; apply HF, H; reflexivity.
  - exfalso. assert (false = true) by (apply H; exact HF). discriminate.
Qed.
