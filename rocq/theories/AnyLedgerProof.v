(** A lawful accounting can take the place of the one in memory. *)
From Verif Require Import Base Types Filters Accounting Currency Position OrderBook OrderMargin
  Risk MarketUpdate Tracker Exchange Ledger SpecLedger.

Lemma memory_new dbg start : exists acc, accounting_new dbg start = Done acc /\ debit_sum acc = credit_sum acc /\
  forall id, margin_balance_of acc id = match id with WALLET => start | TREASURY => - start | _ => 0 end.
Proof.
  unfold accounting_new, debug_assert_accounting_equation. set (acc := Build_accounts _ _ _ _ _ _).
  assert (E : debit_sum acc = credit_sum acc) by (unfold debit_sum, credit_sum, acc; cbn; lia). rewrite E, Z.eqb_refl.
  assert (X : debug_assert dbg true PAccountingEquation = Done tt) by (destruct dbg; reflexivity). rewrite X. cbn [bind].
  exists acc. split; [reflexivity|]. split; [exact E|]. intros id. unfold acc, margin_balance_of, net_balance. destruct id; cbn; lia.
Qed.

Section Lawful.
Context {A : Type} (L : accounting A) (start : Z) (ok : A -> Prop) (Law : lawful L start ok).

Definition agree (a : A) (acc : accounts) : Prop := ok a /\ debit_sum acc = credit_sum acc /\ same_balances L a acc.
(** [m] does what [n] does. *)
Definition asim {X Y} (S : A -> X -> Y -> Prop) (m : outcome (A * X)) (n : outcome Y) : Prop :=
  match n with Panic p => m = Panic p | Done y => exists a x, m = Done (a, x) /\ S a x y end.

Lemma asim_done {X Y} (S : A -> X -> Y -> Prop) a x y : S a x y -> asim S (Done (a, x)) (Done y).
Proof. intros H. exists a, x. auto. Qed.
Lemma asim_bind {X Y X' Y'} (S : A -> X -> Y -> Prop) (T : A -> X' -> Y' -> Prop) m n (k : X -> am X') l a :
  asim S (m a) n -> (forall a' x y, S a' x y -> asim T (k x a') (l y)) -> asim T (abind m k a) (bind n l).
Proof.
  intros H K. unfold abind. destruct n as [y|p]; cbn in H |- *; [|rewrite H; reflexivity].
  destruct H as (a' & x & -> & H). apply K, H.
Qed.
Lemma asim_lift {X X' Y'} (T : A -> X' -> Y' -> Prop) (m : outcome X) (k : X -> am X') l a :
  (forall x, asim T (k x a) (l x)) -> asim T (abind (alift m) k a) (bind m l).
Proof. intros K. unfold abind, alift. destruct m as [x|p]; cbn; [apply K | reflexivity]. Qed.
Lemma asim_lift1 {X X' Y'} (T : A -> X' -> Y' -> Prop) (m : outcome X) (k : X -> am X') (l : outcome Y') a x :
  m = Done x -> asim T (k x a) l -> asim T (abind (alift m) k a) l.
Proof. intros -> K. exact K. Qed.
Lemma asim_ret {X X' Y'} (T : A -> X' -> Y' -> Prop) (x : X) (k : X -> am X') n a :
  asim T (k x a) n -> asim T (abind (aret x) k a) n.
Proof. intros K. exact K. Qed.

Lemma ask_ok a acc id : agree a acc -> ask L id a = Done (a, Ok (margin_balance_of acc id)).
Proof. intros (_ & _ & H). unfold ask. rewrite (H id). reflexivity. Qed.
Lemma bal_ok a acc id : agree a acc -> bal L id a = Done (a, margin_balance_of acc id).
Proof. intros H. unfold bal, abind. rewrite (ask_ok a acc id H). reflexivity. Qed.
Lemma asim_ask {X' Y'} (T : A -> X' -> Y' -> Prop) (k : _ -> am X') n a acc id :
  agree a acc -> asim T (k (Ok (margin_balance_of acc id)) a) n -> asim T (abind (ask L id) k a) n.
Proof. intros H K. unfold abind. rewrite (ask_ok a acc id H). exact K. Qed.
Lemma asim_bal {X' Y'} (T : A -> X' -> Y' -> Prop) (k : _ -> am X') n a acc id :
  agree a acc -> asim T (k (margin_balance_of acc id) a) n -> asim T (abind (bal L id) k a) n.
Proof. intros H K. unfold abind. rewrite (bal_ok a acc id H). exact K. Qed.

Lemma pay_ok dbg a acc d k amt : agree a acc -> moves d k ->
  asim (fun a' _ acc' => agree a' acc') (pay L d k amt a) (transfer dbg acc d k amt).
Proof.
  intros (O & E & B) M. unfold pay, transfer, transaction_new, abind, alift.
  destruct (Z.ltb_spec 0 amt) as [Ha|Ha]; cbn [assert bind]; [|reflexivity].
  assert (N : d <> k) by (intros ->; destruct k; exact M).
  destruct (account_id_eq_dec d k) as [C|_]; [contradiction|]. cbn [assert bind].
  destruct (law_transfer L start ok Law a d k amt O M Ha) as (a' & -> & O' & B').
  unfold create_margin_transfer; cbn [tx_debit tx_credit tx_amount bind unwrap aret].
  set (acc2 := set_account _ d _).
  assert (E2 : debit_sum acc2 = credit_sum acc2).
  { unfold acc2. clear B B'. destruct acc as [w o p f b t]. destruct w, o, p, f, b, t. unfold debit_sum, credit_sum in *.
    destruct d, k; try contradiction; cbn in *; lia. }
  assert (V : forall id, margin_balance_of acc2 id =
    if account_id_eq_dec id d then margin_balance_of acc id + amt else if account_id_eq_dec id k then margin_balance_of acc id - amt else margin_balance_of acc id).
  { intros id. unfold acc2. clear - N. destruct acc as [w o p f b t]. unfold margin_balance_of, net_balance.
    destruct d, k; try contradiction; destruct id; cbn; lia. }
  unfold debug_assert_accounting_equation. rewrite E2, Z.eqb_refl.
  assert (X : debug_assert dbg true PAccountingEquation = Done tt) by (destruct dbg; reflexivity). rewrite X. cbn [bind].
  exists a', tt. split; [reflexivity|]. split; [exact O'|]. split; [exact E2|]. intros id. rewrite (B' id _ (B id)), V. reflexivity.
Qed.
Lemma asim_pay {X' Y'} (T : A -> X' -> Y' -> Prop) (k : unit -> am X') l a acc dbg d c amt :
  agree a acc -> moves d c -> (forall a' acc', agree a' acc' -> asim T (k tt a') (l acc')) ->
  asim T (abind (pay L d c amt) k a) (bind (transfer dbg acc d c amt) l).
Proof. intros H M K. eapply asim_bind; [apply pay_ok; eassumption|]. intros a' [] acc' H'. apply K, H'. Qed.

Ltac go1 :=
  match goal with
  | |- asim _ (abind (abind _ _) _ _) _ => fail 1
  | |- asim _ (abind (aret _) _ _) _ => apply asim_ret; cbv beta
  | |- asim _ (abind (alift ?m) _ _) (bind ?m _) => apply asim_lift; intros ?; cbv beta
  | H : agree ?a ?acc |- asim _ (abind (bal L _) _ ?a) _ => apply (asim_bal _ _ _ a acc _ H); cbv beta
  | H : agree ?a ?acc |- asim _ (abind (ask L _) _ ?a) _ => apply (asim_ask _ _ _ a acc _ H); cbv beta iota
  | H : agree ?a ?acc |- asim _ (abind (pay L _ _ _) _ ?a) (bind (transfer _ ?acc _ _ _) _) =>
      eapply (asim_pay _ _ _ a acc); [exact H | exact I | intros ? ? ?; cbv beta]
  | |- asim _ (aret _ _) (Done _) => apply asim_done
  | |- asim _ (Panic _) (Panic _) => reflexivity
  end.
Ltac go := repeat go1.

(** ** Position *)
Definition SP {X} (a : A) (x : X) (y : X * accounts) : Prop := x = fst y /\ agree a (snd y).
Lemma l_inner_new c a acc q p f : agree a acc -> asim SP (a_inner_new L c q p f a) (inner_new c acc q p f).
Proof. intros H. unfold a_inner_new, inner_new; cbv zeta. go. split; [reflexivity | assumption]. Qed.
Lemma l_increase c i a acc q p f : agree a acc -> asim SP (a_increase_contracts L c i q p f a) (increase_contracts c i acc q p f).
Proof. intros H. unfold a_increase_contracts, increase_contracts; cbv zeta. go. split; [reflexivity | assumption]. Qed.
Lemma l_decrease c i a acc q p long f :
  agree a acc -> asim SP (a_decrease_contracts L c i q p long f a) (decrease_contracts c i acc q p long f).
Proof.
  intros H. unfold a_decrease_contracts, decrease_contracts; cbv zeta. go.
  eapply asim_bind with (S := fun a' _ acc' => agree a' acc').
  { destruct (_ ?= 0); [apply asim_done; exact H | apply pay_ok; [exact H | exact I]..]. }
  intros a1 [] acc1 H1. go. destruct (0 <? _); go; split; (reflexivity || assumption).
Qed.
Lemma l_margin (dbg : bool) a acc b p {X' Y'} (T : A -> X' -> Y' -> Prop) (k : _ -> am X') l m :
  agree a acc -> m a = Done (a, b) -> asim T (k tt a) l ->
  asim T (abind (adebug dbg m p) k a) (bind (debug_assert dbg b p) (fun _ => l)).
Proof.
  intros H E K. unfold adebug, abind in *. destruct dbg; cbn [debug_assert]; [|exact K]. unfold alift. rewrite E. cbn [bind].
  destruct b; cbn [assert bind debug_assert]; [exact K | reflexivity].
Qed.
Lemma left_ok a acc : agree a acc ->
  abind (bal L POSITION_MARGIN) (fun left => aret (left =? 0)) a = Done (a, margin_balance_of acc POSITION_MARGIN =? 0).
Proof. intros H. unfold abind. rewrite (bal_ok a acc _ H). reflexivity. Qed.
Lemma asim_map {X Y X' Y'} (S : A -> X -> Y -> Prop) (T : A -> X' -> Y' -> Prop) m n (f : X -> X') (g : Y -> Y') a :
  asim S (m a) n -> (forall a' x y, S a' x y -> T a' (f x) (g y)) -> asim T (abind m (fun x => aret (f x)) a) (bind n (fun y => Done (g y))).
Proof. intros H K. eapply asim_bind; [exact H|]. intros. apply asim_done, K. assumption. Qed.

Lemma l_change c pos a acc q p sd f :
  agree a acc -> asim SP (a_change_position L c pos q p sd f a) (change_position c pos acc q p sd f).
Proof.
  intros H. unfold a_change_position, change_position; cbv zeta.
  apply asim_lift; intros [].
  assert (CLOSE : forall i long, asim SP (a_close L c i q p long f a)
    ('(i0, acc1) <- decrease_contracts c i acc q p long f ;;
     _ <- debug_assert (c_dbg c) (margin_balance_of acc1 POSITION_MARGIN =? 0) PCloseMarginDebug ;; Done (Neutral, acc1))).
  { intros i long. unfold a_close. eapply asim_bind; [apply l_decrease, H|]. intros a1 j [j' acc1] [E H1]; cbn in E, H1 |- *.
    eapply l_margin; [exact H1 | apply left_ok, H1|]. apply asim_done. split; [reflexivity | exact H1]. }
  assert (FLIP : forall i long (g : position_inner -> position), asim SP (abind (a_flip L c i q p long f) (fun j => aret (g j)) a)
    ('(i0, acc1) <- decrease_contracts c i acc (pi_qty i) p long f ;;
     _ <- assert (pi_qty i0 =? 0) PFlipQty ;;
     _ <- assert (margin_balance_of acc1 POSITION_MARGIN =? 0) PFlipMargin ;;
     '(j, acc2) <- inner_new c acc1 (q - pi_qty i) p 0 ;; Done (g j, acc2))).
  { intros i long g. unfold a_flip; cbv zeta.
    assert (ASSOC : forall X Y Z' (m : am (A:=A) X) (k : X -> am Y) (h : Y -> am Z') b, abind (abind m k) h b = abind m (fun x => abind (k x) h) b).
    { intros. unfold abind. destruct (m b) as [[? ?]|]; reflexivity. }
    rewrite ASSOC. eapply asim_bind; [apply l_decrease, H|]. intros a1 j [j' acc1] [E H1]; cbn in E, H1 |- *; subst j'.
    rewrite ASSOC. go1. rewrite ASSOC. go1. rewrite ASSOC. go1.
    eapply asim_bind; [apply l_inner_new, H1|]. intros a2 k [k' acc2] [E2 H2]; cbn in E2, H2 |- *; subst k'. apply asim_done. split; [reflexivity | exact H2]. }
  assert (INC : forall i (g : position_inner -> position), asim SP (abind (a_increase_contracts L c i q p f) (fun j => aret (g j)) a)
    ('(i0, acc1) <- increase_contracts c i acc q p f ;; Done (g i0, acc1))).
  { intros i g. eapply asim_bind; [apply l_increase, H|]. intros a1 j [j' acc1] [E H1]; cbn in E, H1 |- *; subst j'. apply asim_done. split; [reflexivity | exact H1]. }
  assert (DEC : forall i long (g : position_inner -> position), asim SP (abind (a_decrease_contracts L c i q p long f) (fun j => aret (g j)) a)
    ('(i0, acc1) <- decrease_contracts c i acc q p long f ;; Done (g i0, acc1))).
  { intros i long g. eapply asim_bind; [apply l_decrease, H|]. intros a1 j [j' acc1] [E H1]; cbn in E, H1 |- *; subst j'. apply asim_done. split; [reflexivity | exact H1]. }
  destruct pos as [|i|i]; [|destruct sd; [apply INC|destruct (q ?= pi_qty i); [apply CLOSE | apply DEC | apply FLIP]]
                         |destruct sd; [destruct (q ?= pi_qty i); [apply CLOSE | apply DEC | apply FLIP]|apply INC]].
  eapply l_margin; [exact H | apply left_ok, H|].
  eapply asim_bind; [apply l_inner_new, H|]. intros a1 j [j' acc1] [E H1]; cbn in E, H1 |- *; subst j'.
  destruct sd; apply asim_done; (split; [reflexivity | exact H1]).
Qed.

(** ** Exchange *)
Definition SE (a : A) (e e' : exchange) : Prop := exists acc, e' = set_acc e acc /\ agree a acc.
Definition SX {X} (a : A) (x y : exchange * X) : Prop := SE a (fst x) (fst y) /\ snd x = snd y.
Definition S3 {X Y} (a : A) (x y : exchange * X * Y) : Prop := SE a (fst (fst x)) (fst (fst y)) /\ snd (fst x) = snd (fst y) /\ snd x = snd y.
Ltac fin := match goal with
  | H : agree ?a ?acc |- SX ?a _ _ => split; [exists acc; split; [reflexivity | exact H] | reflexivity]
  | H : agree ?a ?acc |- SE ?a _ _ => exists acc; split; [reflexivity | exact H]
  | H : agree ?a ?acc |- S3 ?a _ _ => split; [exists acc; split; [reflexivity | exact H] | split; reflexivity]
  end.
Ltac set_simpl := cbn [set_acc set_trk set_ms set_next_id set_pos set_active set_om set_trig set_updates
  ex_ms ex_trk ex_next_id ex_acc ex_pos ex_active ex_om ex_trig ex_updates] in *.

Lemma l_settle c e a acc o : agree a acc -> asim SE (a_settle L c e o a) (settle_filled_market_order c (set_acc e acc) o).
Proof.
  intros H. unfold a_settle, settle_filled_market_order; cbv zeta. set_simpl. go.
  eapply asim_bind; [apply l_change, H|]. intros a1 pos [pos' acc1] [E H1]; cbn in E, H1 |- *; subst pos'. go. fin.
Qed.
Lemma l_market c e a acc o : agree a acc -> asim SX (a_submit_market L c e o a) (submit_market_order c (set_acc e acc) o).
Proof.
  intros H. unfold a_submit_market, submit_market_order; cbv zeta. set_simpl. go.
  match goal with |- asim _ (match ?v with _ => _ end _) _ => destruct v as [[]|err] end; [|go; fin].
  set_simpl. go. match goal with |- asim _ (match ?v with _ => _ end _) _ => destruct v as [[]|err] end; [|go; fin].
  eapply asim_bind; [exact (l_settle c _ a acc _ H)|]. intros a1 e1 e1' (acc1 & -> & H1). go. fin.
Qed.
Lemma l_liquidate c e a acc : agree a acc -> asim SE (a_liquidate L c e a) (liquidate c (set_acc e acc)).
Proof.
  intros H. unfold a_liquidate, liquidate. set_simpl. go.
  eapply asim_bind; [apply l_market, H|]. intros a1 [e1 r] [e1' r'] [(acc1 & E1 & H1) E]; cbn in E, E1, H1 |- *; subst e1' r'.
  destruct r; [apply asim_done; fin | reflexivity].
Qed.
Lemma l_wallet {X' Y'} (T : A -> X' -> Y' -> Prop) (k : _ -> am X') l a acc : agree a acc -> asim T (k tt a) l ->
  asim T (abind (a_assert_wallet L) k a) (bind (assert_user_wallet_balance acc) (fun _ => l)).
Proof.
  intros H K. unfold a_assert_wallet, assert_user_wallet_balance, abind. rewrite (bal_ok a acc _ H). cbn [bind].
  unfold alift. destruct (0 <=? _); cbn [assert bind]; [exact K | reflexivity].
Qed.
Lemma empty_ok a acc book : agree a acc ->
  a_empty_margin L book a = Done (a, match book with [] => margin_balance_of acc ORDER_MARGIN =? 0 | _ => true end).
Proof. intros H. destruct book; [|reflexivity]. unfold a_empty_margin, abind. rewrite (bal_ok a acc _ H). reflexivity. Qed.
Lemma asim_known {X X' Y'} (T : A -> X' -> Y' -> Prop) (m : am X) (k : X -> am X') n a x :
  m a = Done (a, x) -> asim T (k x a) n -> asim T (abind m k a) n.
Proof. intros E K. unfold abind. rewrite E. exact K. Qed.

Lemma l_append c e a acc o : agree a acc -> asim SX (a_append L c e o a) (append_limit_order c (set_acc e acc) o).
Proof.
  intros H. unfold a_append, append_limit_order; cbv zeta. set_simpl. apply asim_lift. intros [om' r].
  destruct r as [[]|err]; [|go; fin]. set_simpl. destruct (book_insert _ _ _) as [act' [x|err]]; [|go; fin].
  unfold computed_order_margin; set_simpl. go1. go1.
  destruct (_ ?= _) eqn:E; [apply asim_done; fin|..];
    (apply (asim_pay _ _ _ a acc); [exact H | exact I | intros a1 acc1 H1; cbv beta]; set_simpl; go1;
     eapply asim_known; [apply empty_ok, H1|]; cbv beta; set_simpl; go1; apply l_wallet; [exact H1|]; apply asim_done; fin).
Qed.
Lemma l_limit c e a acc o : agree a acc -> asim SX (a_submit_limit L c e o a) (submit_limit_order c (set_acc e acc) o).
Proof.
  intros H. unfold a_submit_limit, submit_limit_order; cbv zeta. set_simpl. go1.
  match goal with |- asim _ (match ?v with _ => _ end _) _ => destruct v as [[]|err] end; [|go; fin]. go1.
  match goal with |- asim _ (match ?v with _ => _ end _) _ => destruct v as [[]|err] end; [|go; fin].
  set_simpl. go1. go1.
  match goal with |- asim _ (match ?v with _ => _ end _) _ => destruct v as [[]|err] end; [|go; fin].
  set_simpl. destruct (marketable _ _); [go; fin|].
  eapply asim_bind; [exact (l_append c _ a acc _ H)|]. intros a1 [e1 r] [e1' r'] [(acc1 & E1 & H1) E]; cbn in E, E1, H1 |- *; subst e1' r'.
  destruct r as [[]|]; apply asim_done; fin.
Qed.
Lemma l_pay_if (b : bool) dbg a acc d k amt e : agree a acc -> moves d k ->
  asim (fun a' (_ : unit) e' => exists acc', e' = set_acc e acc' /\ agree a' acc')
    ((if b then pay L d k amt else aret tt) a)
    (if b then acc' <- transfer dbg acc d k amt ;; Done (set_acc (set_acc e acc) acc') else Done (set_acc e acc)).
Proof.
  intros H M. destruct b; [|apply asim_done; exists acc; auto].
  pose proof (pay_ok dbg a acc d k amt H M) as P. unfold asim in P. destruct (transfer _ _ _ _ _) as [acc'|p]; cbn [bind]; [|exact P].
  destruct P as (a' & [] & -> & P). apply asim_done. exists acc'. auto.
Qed.
Lemma l_cancel c e a acc by_ : agree a acc -> asim SX (a_cancel L c e by_ a) (cancel_limit_order c (set_acc e acc) by_).
Proof.
  intros H. unfold a_cancel, cancel_limit_order; cbv zeta. unfold computed_order_margin; set_simpl. go.
  destruct by_ as [id|uid]; [destruct (remove_by_order_id _ _) as [[removed act']|] | destruct (remove_by_user_order_id _ _) as [[removed act']|]];
    try (apply asim_done; fin);
    (set_simpl; go1; set_simpl; go1; go1;
     eapply asim_bind; [exact (l_pay_if _ (c_dbg c) a acc WALLET ORDER_MARGIN _ (set_om (set_active e act') x1) H I)|];
     intros a1 [] e1 (acc1 & -> & H1); set_simpl; go1; eapply asim_known; [apply empty_ok, H1|]; cbv beta; set_simpl; go1; apply asim_done; fin).
Qed.
Lemma l_amend c e a acc id o : agree a acc -> asim SX (a_amend L c e id o a) (amend_limit_order c (set_acc e acc) id o).
Proof.
  intros H. unfold a_amend, amend_limit_order; cbv zeta. set_simpl. destruct (get_by_id _ _) as [ex|]; [|apply asim_done; fin].
  go1. destruct (_ <=? 0).
  - eapply asim_bind; [apply l_cancel, H|]. intros a1 [e1 r] [e1' r'] [(acc1 & E1 & H1) E]; cbn in E, E1, H1 |- *; subst e1' r'.
    destruct r; [apply asim_done; fin | reflexivity].
  - go1. eapply asim_bind; [apply l_cancel, H|]. intros a1 [e1 r] [e1' r'] [(acc1 & E1 & H1) E]; cbn in E, E1, H1 |- *; subst e1' r'.
    destruct r; [apply l_limit, H1 | apply asim_done; fin].
Qed.
Lemma l_fill_one c u e a acc ids o : agree a acc -> asim S3 (a_fill_one L c u e ids o a) (fill_one c u (set_acc e acc) ids o).
Proof.
  intros H. unfold a_fill_one, fill_one; cbv zeta. unfold computed_order_margin; set_simpl. go1.
  match goal with |- asim _ (match ?v with _ => _ end _) _ => destruct v as [q|] end; [|apply asim_done; fin].
  go1. go1. go1. apply asim_lift; intros [o' filled].
  eapply asim_bind with (S := fun a' x y => fst y = set_acc (fst x) acc /\ snd x = snd y /\ a' = a).
  { unfold alift. destruct filled as [fo|].
    - destruct (om_remove _ _); [|reflexivity]. apply asim_done. split; [reflexivity | split; reflexivity].
    - destruct (debug_assert _ _ _); [|reflexivity]. cbn [bind]. destruct (om_update _ _ _) as [[om' [r|r]]|]; [|reflexivity..].
      apply asim_done. split; [reflexivity | split; reflexivity]. }
  intros a0 [e1 ids1] [e1' ids1'] (E1 & E2 & ->); cbn [fst snd] in E1, E2; subst e1' ids1'. set_simpl. go1.
  eapply asim_bind; [apply l_change, H|]. intros a1 pos [pos' acc1] [E H1]; cbn in E, H1 |- *; subst pos'.
  set_simpl. go1. set_simpl. go1. go1.
  eapply asim_bind; [exact (l_pay_if _ (c_dbg c) a1 acc1 WALLET ORDER_MARGIN _ (set_trk (set_pos e1 pos) x2) H1 I)|].
  intros a2 [] e2 (acc2 & -> & H2). apply asim_done. fin.
Qed.
Lemma l_fill_loop c u l : forall e a acc ids, agree a acc -> asim S3 (a_fill_loop L c u e ids l a) (fill_loop c u (set_acc e acc) ids l).
Proof.
  induction l as [|o l IH]; intros e a acc ids H; cbn [a_fill_loop fill_loop]; [apply asim_done; fin|].
  eapply asim_bind; [apply l_fill_one, H|]. intros a1 [[e1 i1] o1] [[e1' i1'] o1'] [(acc1 & E1 & H1) [E2 E3]]; cbn in E1, E2, E3 |- *; subst e1' i1' o1'.
  eapply asim_bind; [apply IH, H1|]. intros a2 [[e2 i2] l2] [[e2' i2'] l2'] [(acc2 & E1 & H2) [E2 E3]]; cbn in E1, E2, E3 |- *; subst e2' i2' l2'.
  apply asim_done. fin.
Qed.
Lemma l_check c e a acc u : agree a acc -> asim SE (a_check L c e u a) (check_active_orders c (set_acc e acc) u).
Proof.
  intros H. unfold a_check, check_active_orders; cbv zeta. destruct (negb (can_fill u)); [apply asim_done; fin|]. set_simpl. go1.
  eapply asim_bind; [exact (l_fill_loop c u _ (set_updates e []) a acc [] H)|].
  intros a1 [[e1 ids] arena] [[e1' ids'] arena'] [(acc1 & E1 & H1) [E2 E3]]; cbn in E1, E2, E3 |- *; subst e1' ids' arena'.
  go1. set_simpl. go1. eapply l_margin; [exact H1 | apply empty_ok, H1|].
  match goal with |- asim _ (abind (adebug ?d ?m ?p) _ _) _ => assert (M : forall b, adebug d m p b = adebug d m p b) by reflexivity; clear M end.
  unfold computed_order_margin; set_simpl. unfold adebug, debug_assert_m. destruct (c_dbg c); [|cbn [bind]; apply asim_ret; apply l_wallet; [exact H1 | apply asim_done; fin]].
  assert (ASSOC : forall X Y Z' (m : am (A:=A) X) (k : X -> am Y) (h : Y -> am Z') b, abind (abind m k) h b = abind m (fun x => abind (k x) h) b).
  { intros. unfold abind. destruct (m b) as [[? ?]|]; reflexivity. }
  repeat (rewrite ASSOC; cbv beta). go1. rewrite ?ASSOC. unfold abind, alift. destruct (order_margin _ _ _) as [v|]; cbn [bind aret]; [|reflexivity].
  destruct (assert _ _); cbn [bind]; [|reflexivity].
  match goal with |- asim _ ?m _ => change (asim SE (abind (a_assert_wallet L) (fun _ => aret (set_active e1 a0)) a1)
     (_ <- assert_user_wallet_balance acc1 ;; Done (set_active (set_acc e1 acc1) a0))) || idtac end.
  apply l_wallet; [exact H1 | apply asim_done; fin].
Qed.
Lemma l_update c e a acc u : agree a acc -> asim SX (a_update L c e u a) (update_state c (set_acc e acc) u).
Proof.
  intros H. unfold a_update, update_state; cbv zeta. set_simpl. go1. destruct (should_trigger _ _) as [trig fire].
  set (e3 := set_trig (set_trk (set_ms e x) _) trig).
  assert (K : forall e4, asim SX
    (match check_maintenance_margin c (ms_bid (ex_ms e4)) (ms_ask (ex_ms e4)) (ex_pos e4) with
     | Err err => abind (a_liquidate L c e4) (fun e5 => aret (e5, Err (ERisk err)))
     | Ok _ => abind (a_check L c e4 u) (fun e5 => aret (e5, Ok (ex_updates e5)))
     end a)
    (match check_maintenance_margin c (ms_bid (ex_ms e4)) (ms_ask (ex_ms e4)) (ex_pos e4) with
     | Err err => e5 <- liquidate c (set_acc e4 acc) ;; Done (e5, Err (ERisk err))
     | Ok _ => e5 <- check_active_orders c (set_acc e4 acc) u ;; Done (e5, Ok (ex_updates e5))
     end)).
  { intros e4. destruct (check_maintenance_margin _ _ _ _).
    - eapply asim_bind; [apply l_check, H|]. intros a1 e1 e1' (acc1 & -> & H1). apply asim_done. fin.
    - eapply asim_bind; [apply l_liquidate, H|]. intros a1 e1 e1' (acc1 & -> & H1). apply asim_done. fin. }
  destruct fire.
  - set (b := {| ub_wallet := margin_balance_of acc WALLET; ub_pm := margin_balance_of acc POSITION_MARGIN; ub_om := margin_balance_of acc ORDER_MARGIN |}).
    eapply asim_known with (x := set_trk e3 (tracker_sample (ex_trk e3) (balances_sum b))); [|exact (K _)].
    unfold a_balances, abind. rewrite !(bal_ok a acc _ H); cbn [bind aret]. rewrite (bal_ok a acc _ H); cbn [bind]. rewrite (bal_ok a acc _ H). reflexivity.
  - apply asim_ret. exact (K e3).
Qed.
Lemma l_out {X} (f : X -> out) m n a : asim SX (m a) n -> asim SX (a_out f m a) (map_out f n).
Proof.
  intros H. unfold a_out, map_out. eapply asim_bind; [exact H|].
  intros a1 [e1 r] [e1' r'] [(acc1 & E1 & H1) E]; cbn in E, E1, H1 |- *; subst e1' r'. apply asim_done. fin.
Qed.
Lemma l_step c e a acc o : agree a acc -> asim SX (a_step L c e o a) (step c (set_acc e acc) o).
Proof.
  intros H. destruct o as [r|sd q uid|sd p q uid|by_|id sd p q uid|r]; cbn [a_step step].
  - go1. apply l_out, l_update, H.
  - destruct (market_new _ _ _); [apply l_out, l_market, H | apply asim_done; fin].
  - destruct (limit_new _ _ _ _); [apply l_out, l_limit, H | apply asim_done; fin].
  - apply l_out, l_cancel, H.
  - destruct (limit_new _ _ _ _); [apply l_out, l_amend, H | apply asim_done; fin].
  - go1. eapply asim_bind; [apply l_check, H|]. intros a1 e1 e1' (acc1 & -> & H1). apply asim_done. fin.
Qed.
Lemma l_run c ops : forall e a acc, agree a acc -> asim SX (a_run L c e ops a) (run c (set_acc e acc) ops).
Proof.
  induction ops as [|o ops IH]; intros e a acc H; cbn [a_run run]; [apply asim_done; fin|].
  eapply asim_bind; [apply l_step, H|]. intros a1 [e1 r] [e1' r'] [(acc1 & E1 & H1) E]; cbn in E, E1, H1 |- *; subst e1' r'.
  eapply asim_bind; [apply IH, H1|]. intros a2 [e2 rs] [e2' rs'] [(acc2 & E1 & H2) E]; cbn in E, E1, H2 |- *; subst e2' rs'.
  apply asim_done. fin.
Qed.
Lemma l_play c ops : c_start c = start -> asim SX (a_play L c ops) (e0 <- init c ;; run c e0 ops).
Proof.
  intros ES. unfold a_play, a_init, init, exchange_new. destruct (tracker_new _) as [t|]; cbn [bind]; [|reflexivity].
  destruct (law_new L start ok Law) as (a & N & O & B). rewrite ES, N. cbn [bind].
  destruct (memory_new (c_dbg c) start) as (acc & -> & E & V). cbn [bind].
  match goal with |- asim _ (a_run L c ?e ops a) (run c ?e' ops) =>
    change e' with (set_acc e (ex_acc e')); apply (l_run c ops e a (ex_acc e')) end.
  split; [exact O|]. split; [exact E|]. intros id. rewrite B. cbn [ex_acc]. rewrite V. reflexivity.
Qed.
End Lawful.

(** The state of any accounting that is lawful in place of the one in memory. *)
Lemma lawful_same {A} (L : accounting A) ok c ops : lawful L (c_start c) ok ->
  match (e0 <- init c ;; run c e0 ops) with
  | Panic p => a_play L c ops = Panic p
  | Done (e', outs) => exists a e, a_play L c ops = Done (a, (e, outs)) /\ same_rest e e' /\ same_balances L a (ex_acc e') /\ ok a
  end.
Proof.
  intros Law. pose proof (l_play L (c_start c) ok Law c ops eq_refl) as H. unfold asim in H.
  destruct (e0 <- init c ;; run c e0 ops) as [[e' outs]|p]; [|exact H].
  destruct H as (a & [e r] & E & (acc & E1 & O & _ & B) & E2). cbn in E1, E2. subst e' r.
  exists a, e. split; [exact E|]. split; [reflexivity|]. split; [exact B | exact O].
Qed.

(** ** Instances *)
Lemma in_memory_lawful dbg start : lawful (in_memory dbg) start (fun acc => debit_sum acc = credit_sum acc).
Proof.
  split.
  - destruct (memory_new dbg start) as (acc & N & E & V). exists acc. split; [exact N|]. split; [exact E|].
    intros id. cbn [in_memory a_balance]. rewrite V. reflexivity.
  - intros acc d k amt E M Ha. cbn [a_transfer a_balance in_memory]. unfold create_margin_transfer; cbn [tx_debit tx_credit tx_amount].
    set (acc2 := set_account _ d _).
    assert (E2 : debit_sum acc2 = credit_sum acc2).
    { unfold acc2. destruct acc as [w o p f b t]. destruct w, o, p, f, b, t. unfold debit_sum, credit_sum in *.
      destruct d, k; try contradiction; cbn in *; lia. }
    unfold debug_assert_accounting_equation. rewrite E2, Z.eqb_refl.
    assert (X : debug_assert dbg true PAccountingEquation = Done tt) by (destruct dbg; reflexivity). rewrite X. cbn [bind].
    eexists. split; [reflexivity|]. split; [exact E2|]. intros id v Hv. injection Hv as <-. do 2 f_equal.
    unfold acc2. clear - M. destruct acc as [w o p f b t]. unfold margin_balance_of, net_balance.
    destruct d, k; try contradiction; destruct id; cbn; lia.
Qed.

Lemma booked_app l l' id : booked (l ++ l') id = booked l id + booked l' id.
Proof. induction l as [|x l IH]; cbn [app booked]; [lia|]. rewrite IH. lia. Qed.
Lemma recording_lawful {A} (L : accounting A) start ok : lawful L start ok ->
  lawful (recording L) start (fun b => ok (fst b) /\ Forall regular (snd b) /\
    forall id, a_balance L (fst b) id = Done (Ok (opening start id + booked (snd b) id))).
Proof.
  intros Law. split.
  - destruct (law_new L start ok Law) as (a & N & O & B). exists (a, []). cbn [a_new recording a_balance fst snd]. rewrite N.
    split; [reflexivity|]. split; [|exact B]. split; [exact O|]. split; [constructor|]. intros id. rewrite B. cbn [booked]. rewrite Z.add_0_r. reflexivity.
  - intros [a l] d k amt (O & F & V) M Ha. cbn [fst snd] in O, F, V.
    destruct (law_transfer L start ok Law a d k amt O M Ha) as (a' & E & O' & B').
    exists (a', l ++ [{| tx_debit := d; tx_credit := k; tx_amount := amt |}]). cbn [a_transfer recording a_balance fst snd]. rewrite E. cbn [bind].
    split; [reflexivity|]. split; [|intros id v Hv; apply B', Hv]. split; [exact O'|]. split.
    + apply Forall_app. split; [exact F|]. constructor; [split; assumption | constructor].
    + intros id. rewrite (B' id _ (V id)), booked_app. cbn [booked tx_debit tx_credit tx_amount]. do 2 f_equal.
      assert (N : d <> k) by (intros ->; destruct k; exact M).
      destruct (account_id_eq_dec id d), (account_id_eq_dec id k); try congruence; lia.
Qed.
(** Running with a recording changes nothing, and the recording explains the balances. *)
Lemma recorded {A} (L : accounting A) ok c ops e outs : lawful L (c_start c) ok -> (e0 <- init c ;; run c e0 ops) = Done (e, outs) ->
  exists a log e', a_play (recording L) c ops = Done ((a, log), (e', outs)) /\ same_rest e' e /\ Forall regular log /\
    forall id, margin_balance_of (ex_acc e) id = opening (c_start c) id + booked log id.
Proof.
  intros Law H. pose proof (lawful_same (recording L) _ c ops (recording_lawful L (c_start c) ok Law)) as K. rewrite H in K.
  destruct K as ([a log] & e' & E & R & B & (_ & F & V)). exists a, log, e'. split; [exact E|]. split; [exact R|]. split; [exact F|].
  intros id. specialize (B id). cbn [recording a_balance fst] in B. specialize (V id). cbn [fst snd] in V. rewrite V in B. injection B as B. symmetry. exact B.
Qed.
