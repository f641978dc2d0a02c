(** Two ledgers that agree on the balances give the same exchange. *)
From Verif Require Import Base Types Filters Accounting Currency Position OrderBook OrderMargin
  Risk MarketUpdate Tracker Exchange Width Fixed Wrapped.

(** [n] behaves like [m] unless [m] overflows. *)
Definition osim {A B} (S : A -> B -> Prop) (m : checked A) (n : checked B) : Prop :=
  match m with
  | Overflow => True
  | Fine (Panic p) => n = Fine (Panic p)
  | Fine (Done a) => exists b, n = Fine (Done b) /\ S a b
  end.

Lemma osim_ret {A B} (S : A -> B -> Prop) a b : S a b -> osim S (ret a) (ret b).
Proof. intros H. exists b. split; [reflexivity | exact H]. Qed.

Lemma osim_bind {A B A' B'} (S : A -> A' -> Prop) (T : B -> B' -> Prop) m n k l :
  osim S m n -> (forall a b, S a b -> osim T (k a) (l b)) -> osim T (cbind m k) (cbind n l).
Proof.
  intros H K. destruct m as [[a|p]|]; cbn in *; [|rewrite H; reflexivity|exact I].
  destruct H as (b & -> & Hab). apply K, Hab.
Qed.

Lemma osim_same {A B B'} (T : B -> B' -> Prop) (m : checked A) k l :
  (forall a, osim T (k a) (l a)) -> osim T (cbind m k) (cbind m l).
Proof. intros K. destruct m as [[a|p]|]; cbn; [apply K | reflexivity | exact I]. Qed.

Lemma osim_fine {A B} (S : A -> B -> Prop) p : osim S (Fine (Panic p)) (Fine (Panic p)).
Proof. reflexivity. Qed.

Lemma osim_weaken {A B} (S T : A -> B -> Prop) m n : osim S m n -> (forall a b, S a b -> T a b) -> osim T m n.
Proof. destruct m as [[a|p]|]; cbn; [|auto..]. intros (b & -> & H) K. eauto. Qed.

Section Sim.
Variables L L' : ledger.
Variable w : Z.
Variable R : accounts -> accounts -> Prop.
Hypothesis HB : forall a a' id, R a a' -> osim eq (l_balance L a id) (l_balance L' a' id).
Hypothesis HT : forall a a' d c amt, d <> c -> R a a' -> osim R (l_transfer L a d c amt) (l_transfer L' a' d c amt).

(** Exchanges that differ in their accounts only. *)
Definition RE (e e' : exchange) : Prop := exists a', e' = set_acc e a' /\ R (ex_acc e) a'.
Definition RP {A} (x : A * accounts) (y : A * accounts) : Prop := fst x = fst y /\ R (snd x) (snd y).
Definition RX {A} (x : exchange * A) (y : exchange * A) : Prop := RE (fst x) (fst y) /\ snd x = snd y.
Definition RX2 {A B} (x : exchange * A * B) (y : exchange * A * B) : Prop :=
  RE (fst (fst x)) (fst (fst y)) /\ snd (fst x) = snd (fst y) /\ snd x = snd y.

Lemma re_intro e a' : R (ex_acc e) a' -> RE e (set_acc e a').
Proof. exists a'. auto. Qed.

Ltac sgo :=
  match goal with
  | |- osim _ (ret _) (ret _) => apply osim_ret
  | |- osim _ (Fine (Panic _)) (Fine (Panic _)) => reflexivity
  | |- osim _ (cbind (l_balance L _ _) _) (cbind (l_balance L' _ _) _) =>
      eapply osim_bind; [apply HB; eassumption | intros ? ? <-]
  | |- osim _ (cbind (l_transfer L _ _ _ _) _) (cbind (l_transfer L' _ _ _ _) _) =>
      eapply osim_bind; [apply HT; [discriminate | eassumption] | intros ? ? ?]
  | |- osim _ (cbind ?m _) (cbind ?m _) => apply osim_same; intros ?
  | |- osim _ (match ?x with _ => _ end) (match ?x with _ => _ end) => destruct x
  end.
Ltac sall := repeat sgo.

(** ** Position *)
Lemma s_inner_new c a a' q p f : R a a' -> osim RP (g_inner_new L w c a q p f) (g_inner_new L' w c a' q p f).
Proof. intros H. unfold g_inner_new; cbv zeta. sall. split; [reflexivity | assumption]. Qed.

Lemma s_increase c i a a' q p f :
  R a a' -> osim RP (g_increase_contracts L w c i a q p f) (g_increase_contracts L' w c i a' q p f).
Proof. intros H. unfold g_increase_contracts; cbv zeta. sall. split; [reflexivity | assumption]. Qed.

Lemma s_decrease c i a a' q p long f :
  R a a' -> osim RP (g_decrease_contracts L w c i a q p long f) (g_decrease_contracts L' w c i a' q p long f).
Proof.
  intros H. unfold g_decrease_contracts; cbv zeta. do 7 sgo.
  eapply osim_bind with (S := R).
  { destruct (_ ?= 0); sall; try assumption; apply HT; (discriminate || assumption). }
  intros x y H1. sall; split; (reflexivity || assumption).
Qed.

Lemma s_no_margin dbg a a' p :
  R a a' -> osim eq (g_no_position_margin L dbg a p) (g_no_position_margin L' dbg a' p).
Proof.
  intros H. unfold g_no_position_margin, cdebug_assert_m. destruct dbg; [|apply osim_ret; reflexivity].
  eapply osim_bind with (S := eq); [sall; reflexivity|]. intros v ? <-. destruct v; cbn; eauto.
Qed.

Lemma s_change c pos a a' q p sd f :
  R a a' -> osim RP (g_change_position L w c pos a q p sd f) (g_change_position L' w c pos a' q p sd f).
Proof.
  intros H. unfold g_change_position; cbv zeta.
  assert (KI : forall i x y, R x y -> osim RP (g_increase_contracts L w c i x q p f) (g_increase_contracts L' w c i y q p f))
    by (intros; apply s_increase; assumption).
  assert (KD : forall i x y q long, R x y -> osim RP (g_decrease_contracts L w c i x q p long f) (g_decrease_contracts L' w c i y q p long f))
    by (intros; apply s_decrease; assumption).
  sgo. destruct pos as [|i|i]; [|destruct sd; [|destruct (q ?= pi_qty i)]|destruct sd; [destruct (q ?= pi_qty i)|]].
  - eapply osim_bind; [apply s_no_margin; assumption|]. intros _ _ _.
    eapply osim_bind; [apply s_inner_new; assumption|]. intros [i x] [j y] [E Hxy]; cbn in E, Hxy; subst j.
    sall; split; (reflexivity || assumption).
  - eapply osim_bind; [apply KI; assumption|]. intros [j x] [j' y] [E Hxy]; cbn in E, Hxy; subst j'. sall; split; (reflexivity || assumption).
  - eapply osim_bind; [apply KD; assumption|]. intros [j x] [j' y] [E Hxy]; cbn in E, Hxy; subst j'.
    eapply osim_bind; [apply s_no_margin; assumption|]. intros _ _ _. sall; split; (reflexivity || assumption).
  - eapply osim_bind; [apply KD; assumption|]. intros [j x] [j' y] [E Hxy]; cbn in E, Hxy; subst j'. sall; split; (reflexivity || assumption).
  - sgo. eapply osim_bind; [apply KD; assumption|]. intros [j x] [j' y] [E Hxy]; cbn in E, Hxy; subst j'. do 3 sgo.
    eapply osim_bind; [apply s_inner_new; assumption|]. intros [k x'] [k' y'] [E' Hxy']; cbn in E', Hxy'; subst k'.
    sall; split; (reflexivity || assumption).
  - eapply osim_bind; [apply KD; assumption|]. intros [j x] [j' y] [E Hxy]; cbn in E, Hxy; subst j'.
    eapply osim_bind; [apply s_no_margin; assumption|]. intros _ _ _. sall; split; (reflexivity || assumption).
  - eapply osim_bind; [apply KD; assumption|]. intros [j x] [j' y] [E Hxy]; cbn in E, Hxy; subst j'. sall; split; (reflexivity || assumption).
  - sgo. eapply osim_bind; [apply KD; assumption|]. intros [j x] [j' y] [E Hxy]; cbn in E, Hxy; subst j'. do 3 sgo.
    eapply osim_bind; [apply s_inner_new; assumption|]. intros [k x'] [k' y'] [E' Hxy']; cbn in E', Hxy'; subst k'.
    sall; split; (reflexivity || assumption).
  - eapply osim_bind; [apply KI; assumption|]. intros [j x] [j' y] [E Hxy]; cbn in E, Hxy; subst j'. sall; split; (reflexivity || assumption).
Qed.

(** ** Exchange *)
Ltac opn := let a := fresh "a'" in let H := fresh "HR" in intros (a & -> & H).

Lemma s_new c t : osim R (l_new L (c_start c)) (l_new L' (c_start c)) -> osim RE (g_exchange_new L c t) (g_exchange_new L' c t).
Proof.
  intros HN. unfold g_exchange_new. eapply osim_bind; [apply HN|]. intros a a' H. sall.
  exists a'. split; [reflexivity | exact H].
Qed.

Lemma s_wallet a a' : R a a' -> osim eq (g_assert_user_wallet_balance L a) (g_assert_user_wallet_balance L' a').
Proof. intros H. unfold g_assert_user_wallet_balance. sgo. destruct (0 <=? _); cbn; eauto. Qed.

Lemma s_empty e e' : RE e e' -> osim eq (g_empty_margin L e) (g_empty_margin L' e').
Proof. opn. unfold g_empty_margin. cbn [set_acc ex_active ex_acc]. destruct (ex_active e); sall; reflexivity. Qed.

Lemma s_balances e e' : RE e e' -> osim eq (g_balances L e) (g_balances L' e').
Proof. opn. unfold g_balances. cbn [set_acc ex_active ex_acc]. sall; reflexivity. Qed.

Lemma s_settle c e e' o :
  RE e e' -> osim RE (g_settle_filled_market_order L w c e o) (g_settle_filled_market_order L' w c e' o).
Proof.
  opn. unfold g_settle_filled_market_order; cbv zeta. cbn [set_acc ex_pos ex_acc ex_trk]. do 4 sgo.
  eapply osim_bind; [apply s_change; exact HR|]. intros [p x] [p' y] [E Hxy]; cbn in E, Hxy; subst p'.
  sall. exists y. split; [reflexivity | exact Hxy].
Qed.

Lemma s_submit_market c e e' o :
  RE e e' -> osim RX (g_submit_market_order L w c e o) (g_submit_market_order L' w c e' o).
Proof.
  opn. unfold g_submit_market_order; cbv zeta.
  cbn [set_acc set_trk set_next_id ex_pos ex_acc ex_trk ex_next_id ex_ms]. do 2 sgo. destruct a0 as [u|err].
  2: { sgo. split; [|reflexivity]. exists a'. split; [reflexivity | exact HR]. }
  sgo. sgo. sgo. sgo. destruct a3 as [u'|err].
  2: { sgo. split; [|reflexivity]. exists a'. split; [reflexivity | exact HR]. }
  eapply osim_bind; [apply s_settle; exists a'; split; [reflexivity | exact HR]|]. intros e1 e1' H1.
  sgo. split; [exact H1 | reflexivity].
Qed.

Lemma s_liquidate c e e' : RE e e' -> osim RE (g_liquidate L w c e) (g_liquidate L' w c e').
Proof.
  intros H. unfold g_liquidate. replace (ex_pos e') with (ex_pos e) by (destruct H as (? & -> & _); reflexivity).
  sgo. eapply osim_bind; [apply s_submit_market; exact H|]. intros [e1 r] [e1' r'] [H1 E]; cbn in H1, E; subst r'.
  sall. exact H1.
Qed.

Lemma s_append c e e' o :
  RE e e' -> osim RX (g_append_limit_order L w c e o) (g_append_limit_order L' w c e' o).
Proof.
  opn. unfold g_append_limit_order, w_computed_order_margin; cbv zeta.
  cbn [set_acc set_om set_active ex_pos ex_acc ex_trk ex_next_id ex_ms ex_om ex_active]. sgo. destruct a as [om r].
  cbn [set_acc set_om set_active ex_pos ex_acc ex_trk ex_next_id ex_ms ex_om ex_active].
  destruct r as [u|err]; [|sgo; split; [exists a'; split; [reflexivity | exact HR] | reflexivity]].
  destruct (book_insert _ _ _) as [act [u'|err]]; [|sgo; split; [exists a'; split; [reflexivity | exact HR] | reflexivity]].
  sgo. sgo.
  assert (K : forall amt, osim RX
    (acc <~ l_transfer L (ex_acc e) ORDER_MARGIN WALLET amt ;;
     _ <~ Fine (assert (orders_eqb om act) PAppendBooks) ;;
     b <~ g_empty_margin L (set_acc (set_active (set_om e om) act) acc) ;;
     _ <~ Fine (assert b PAppendEmptyMargin) ;;
     _ <~ g_assert_user_wallet_balance L acc ;;
     ret (set_acc (set_active (set_om e om) act) acc, Ok (E := error) tt))
    (acc <~ l_transfer L' a' ORDER_MARGIN WALLET amt ;;
     _ <~ Fine (assert (orders_eqb om act) PAppendBooks) ;;
     b <~ g_empty_margin L' (set_acc (set_active (set_om (set_acc e a') om) act) acc) ;;
     _ <~ Fine (assert b PAppendEmptyMargin) ;;
     _ <~ g_assert_user_wallet_balance L' acc ;;
     ret (set_acc (set_active (set_om (set_acc e a') om) act) acc, Ok (E := error) tt))).
  { intros amt. eapply osim_bind; [apply HT; [discriminate | exact HR]|]. intros x y Hxy. sgo.
    assert (HE : RE (set_acc (set_active (set_om e om) act) x) (set_acc (set_active (set_om (set_acc e a') om) act) y))
      by (exists y; split; [reflexivity | exact Hxy]).
    eapply osim_bind; [apply s_empty; exact HE|]. intros b ? <-. sgo.
    eapply osim_bind; [apply s_wallet; exact Hxy|]. intros _ _ _. sgo. split; [exact HE | reflexivity]. }
  destruct (_ ?= _).
  - sgo. split; [exists a'; split; [reflexivity | exact HR] | reflexivity].
  - sgo. apply K.
  - sgo. apply K.
Qed.

Lemma s_submit_limit c e e' o :
  RE e e' -> osim RX (g_submit_limit_order L w c e o) (g_submit_limit_order L' w c e' o).
Proof.
  opn. unfold g_submit_limit_order; cbv zeta.
  cbn [set_acc set_trk set_next_id ex_pos ex_acc ex_trk ex_next_id ex_ms ex_om]. sgo. sgo. destruct a0 as [u|err].
  2: { sgo. split; [|reflexivity]. exists a'. split; [reflexivity | exact HR]. }
  cbn [set_acc set_trk set_next_id ex_pos ex_acc ex_trk ex_next_id ex_ms ex_om].
  sgo. sgo. destruct a1 as [u'|err].
  2: { sgo. split; [|reflexivity]. exists a'. split; [reflexivity | exact HR]. }
  sgo. sgo. sgo. destruct a3 as [u''|err].
  2: { sgo. split; [|reflexivity]. exists a'. split; [reflexivity | exact HR]. }
  destruct (marketable _ _); [sgo; split; [exists a'; split; [reflexivity | exact HR] | reflexivity]|].
  eapply osim_bind; [apply s_append; exists a'; split; [reflexivity | exact HR]|].
  intros [e1 r] [e1' r'] [H1 E]; cbn in H1, E; subst r'. sall; split; (exact H1 || reflexivity).
Qed.

Lemma s_cancel c e e' b :
  RE e e' -> osim RX (g_cancel_limit_order L w c e b) (g_cancel_limit_order L' w c e' b).
Proof.
  opn. unfold g_cancel_limit_order, w_computed_order_margin; cbv zeta.
  cbn [set_acc ex_pos ex_acc ex_trk ex_next_id ex_ms ex_om ex_active]. sgo. sgo. sgo.
  assert (K : forall (removed : limit_order) act', osim RX
    (om' <~ Fine (om_remove (ex_om (set_active e act')) b) ;;
     new_om <~ w_order_margin w c (ex_om (set_om (set_active e act') om')) (ex_pos (set_om (set_active e act') om')) ;;
     _ <~ Fine (assert (new_om <=? a) PCancelMarginGrows) ;;
     e3 <~ (if new_om <? a then
              delta <~ csub w a new_om ;;
              acc <~ l_transfer L (ex_acc (set_om (set_active e act') om')) WALLET ORDER_MARGIN delta ;;
              ret (set_acc (set_om (set_active e act') om') acc)
            else ret (set_om (set_active e act') om')) ;;
     t <~ w_log_limit_order_cancellation w (ex_trk e3) ;;
     _ <~ Fine (assert (orders_eqb (ex_om (set_trk e3 t)) (ex_active (set_trk e3 t))) PCancelBooks) ;;
     b0 <~ g_empty_margin L (set_trk e3 t) ;;
     _ <~ Fine (assert b0 PCancelEmptyMargin) ;;
     ret (set_trk e3 t, Ok (E := error) removed))
    (om' <~ Fine (om_remove (ex_om (set_active (set_acc e a') act')) b) ;;
     new_om <~ w_order_margin w c (ex_om (set_om (set_active (set_acc e a') act') om')) (ex_pos (set_om (set_active (set_acc e a') act') om')) ;;
     _ <~ Fine (assert (new_om <=? a) PCancelMarginGrows) ;;
     e3 <~ (if new_om <? a then
              delta <~ csub w a new_om ;;
              acc <~ l_transfer L' (ex_acc (set_om (set_active (set_acc e a') act') om')) WALLET ORDER_MARGIN delta ;;
              ret (set_acc (set_om (set_active (set_acc e a') act') om') acc)
            else ret (set_om (set_active (set_acc e a') act') om')) ;;
     t <~ w_log_limit_order_cancellation w (ex_trk e3) ;;
     _ <~ Fine (assert (orders_eqb (ex_om (set_trk e3 t)) (ex_active (set_trk e3 t))) PCancelBooks) ;;
     b0 <~ g_empty_margin L' (set_trk e3 t) ;;
     _ <~ Fine (assert b0 PCancelEmptyMargin) ;;
     ret (set_trk e3 t, Ok (E := error) removed))).
  { intros removed act'. cbn [set_acc set_om set_active ex_pos ex_acc ex_trk ex_next_id ex_ms ex_om ex_active]. sgo. sgo. sgo.
    eapply osim_bind with (S := RE).
    { destruct (_ <? _).
      - sgo. eapply osim_bind; [apply HT; [discriminate | exact HR]|]. intros x y Hxy. sgo. exists y. split; [reflexivity | exact Hxy].
      - sgo. exists a'. split; [reflexivity | exact HR]. }
    intros e3 e3' H3. pose proof H3 as (y & E & Hy). rewrite E at 1.
    cbn [set_acc ex_trk]. sgo.
    assert (H4 : RE (set_trk e3 a5) (set_trk e3' a5)) by (subst e3'; exists y; split; [reflexivity | exact Hy]).
    replace (ex_om (set_trk e3' a5)) with (ex_om (set_trk e3 a5)) by (subst e3'; reflexivity).
    replace (ex_active (set_trk e3' a5)) with (ex_active (set_trk e3 a5)) by (subst e3'; reflexivity).
    sgo. eapply osim_bind; [apply s_empty; exact H4|]. intros b0 ? <-. sgo. sgo. split; [exact H4 | reflexivity]. }
  assert (N : forall x, osim RX (ret (e, Err (A := limit_order) (E := error) x)) (ret (set_acc e a', Err x)))
    by (intros x; apply osim_ret; split; [exists a'; split; [reflexivity | exact HR] | reflexivity]).
  destruct b as [id|uid].
  - destruct (remove_by_order_id (ex_active e) id) as [[removed act']|]; [apply K | apply N].
  - destruct (remove_by_user_order_id (ex_active e) uid) as [[removed act']|]; [apply K | apply N].
Qed.

Lemma s_amend c e e' id o :
  RE e e' -> osim RX (g_amend_limit_order L w c e id o) (g_amend_limit_order L' w c e' id o).
Proof.
  intros H. unfold g_amend_limit_order.
  replace (ex_active e') with (ex_active e) by (destruct H as (? & -> & _); reflexivity).
  replace (ex_next_id e') with (ex_next_id e) by (destruct H as (? & -> & _); reflexivity).
  sgo; [|sgo; split; [exact H | reflexivity]]. sgo. sgo. sgo. sgo.
  - eapply osim_bind; [apply s_cancel; exact H|]. intros [e1 r] [e1' r'] [H1 E]; cbn in H1, E; subst r'.
    sall. split; [exact H1 | reflexivity].
  - sgo. eapply osim_bind; [apply s_cancel; exact H|]. intros [e1 r] [e1' r'] [H1 E]; cbn in H1, E; subst r'.
    destruct r; [apply s_submit_limit; exact H1 | sgo; split; [exact H1 | reflexivity]].
Qed.

Lemma s_fill_one c u e e' ids o :
  RE e e' -> osim RX2 (g_fill_one L w c u e ids o) (g_fill_one L' w c u e' ids o).
Proof.
  opn. unfold g_fill_one, w_computed_order_margin; cbv zeta.
  cbn [set_acc ex_pos ex_acc ex_trk ex_next_id ex_ms ex_om ex_active ex_updates]. sgo.
  destruct a as [q|]; [|sgo; split; [exists a'; split; [reflexivity | exact HR] | split; reflexivity]].
  sgo. sgo. sgo. sgo. destruct a2 as [o' filled].
  eapply osim_bind with (S := RX).
  { destruct filled.
    - sgo. sgo. sgo. split; [exists a'; split; [reflexivity | exact HR] | reflexivity].
    - sgo. sgo. sgo. destruct a4 as [om' r]. destruct r; [|reflexivity].
      sgo. split; [exists a'; split; [reflexivity | exact HR] | reflexivity]. }
  intros [e1 ids1] [e1' ids1'] [(z1 & E1 & H1) E]; cbn in E1, H1, E; subst e1' ids1'.
  sgo. sgo. cbn [set_acc ex_pos ex_acc ex_trk ex_next_id ex_ms ex_om ex_active ex_updates].
  eapply osim_bind; [apply s_change; exact H1|]. intros [p x] [p' y] [E Hxy]; cbn in E, Hxy; subst p'.
  cbn [set_acc set_pos ex_pos ex_acc ex_trk ex_next_id ex_ms ex_om ex_active ex_updates]. sgo.
  cbn [set_acc set_pos set_trk ex_pos ex_acc ex_trk ex_next_id ex_ms ex_om ex_active ex_updates]. sgo. sgo.
  eapply osim_bind with (S := RE).
  { destruct (_ <? _).
    - sgo. eapply osim_bind; [apply HT; [discriminate | exact Hxy]|]. intros x' y' Hxy'. sgo. exists y'. split; [reflexivity | exact Hxy'].
    - sgo. exists y. split; [reflexivity | exact Hxy]. }
  intros e4 e4' H4. sgo. split; [exact H4 | split; reflexivity].
Qed.

Lemma s_fill_loop c u todo : forall e e' ids,
  RE e e' -> osim RX2 (g_fill_loop L w c u e ids todo) (g_fill_loop L' w c u e' ids todo).
Proof.
  induction todo as [|o rest IH]; intros e e' ids H; cbn [g_fill_loop].
  - sgo. split; [exact H | split; reflexivity].
  - eapply osim_bind; [apply s_fill_one; exact H|].
    intros [[e1 i1] o1] [[e1' i1'] o1'] (H1 & E1 & E2); cbn in H1, E1, E2; subst i1' o1'.
    eapply osim_bind; [apply IH; exact H1|].
    intros [[e2 i2] o2] [[e2' i2'] o2'] (H2 & E1 & E2); cbn in H2, E1, E2; subst i2' o2'.
    sgo. split; [exact H2 | split; reflexivity].
Qed.

Lemma s_debug dbg (m n : checked bool) p : osim eq m n -> osim eq (cdebug_assert_m dbg m p) (cdebug_assert_m dbg n p).
Proof.
  intros H. unfold cdebug_assert_m. destruct dbg; [|apply osim_ret; reflexivity].
  eapply osim_bind; [exact H|]. intros v ? <-. destruct v; cbn; eauto.
Qed.

Lemma s_check c e e' u :
  RE e e' -> osim RE (g_check_active_orders L w c e u) (g_check_active_orders L' w c e' u).
Proof.
  opn. unfold g_check_active_orders; cbv zeta.
  sgo; [sgo; exists a'; split; [reflexivity | exact HR]|].
  cbn [set_acc set_updates ex_pos ex_acc ex_trk ex_next_id ex_ms ex_om ex_active ex_updates]. sgo.
  eapply osim_bind; [apply s_fill_loop; exists a'; split; [reflexivity | exact HR]|].
  intros [[e1 i1] o1] [[e1' i1'] o1'] (H1 & E1 & E2); cbn in H1, E1, E2; subst i1' o1'.
  destruct H1 as (y & -> & Hy). sgo.
  cbn [set_acc set_active ex_pos ex_acc ex_trk ex_next_id ex_ms ex_om ex_active ex_updates]. sgo.
  assert (H2 : RE (set_active e1 a0) (set_active (set_acc e1 y) a0)) by (exists y; split; [reflexivity | exact Hy]).
  eapply osim_bind; [apply s_debug, s_empty; exact H2|]. intros _ _ _.
  eapply osim_bind; [apply s_debug|intros _ _ _].
  { unfold w_computed_order_margin. cbn [set_acc set_active ex_pos ex_om]. sall. reflexivity. }
  eapply osim_bind; [apply s_wallet; exact Hy|]. intros _ _ _. sgo. exact H2.
Qed.

Lemma s_update_state c e e' u :
  RE e e' -> osim RX (g_update_state L w c e u) (g_update_state L' w c e' u).
Proof.
  opn. unfold g_update_state; cbv zeta.
  cbn [set_acc set_ms ex_pos ex_acc ex_trk ex_next_id ex_ms ex_om ex_active ex_updates]. sgo.
  cbn [set_acc set_ms set_trk ex_trig ex_pos ex_acc ex_trk ex_next_id ex_ms ex_om ex_active ex_updates]. sgo.
  cbn [set_acc set_ms set_trk ex_trig ex_pos ex_acc ex_trk ex_next_id ex_ms ex_om ex_active ex_updates]. sgo.
  destruct a1 as [trig fire].
  eapply osim_bind with (S := RE).
  { destruct fire.
    - eapply osim_bind; [apply s_balances; exists a'; split; [reflexivity | exact HR]|]. intros b ? <-.
      cbn [set_acc set_ms set_trk set_trig ex_trk ex_ms]. sgo. sgo. sgo. exists a'. split; [reflexivity | exact HR].
    - sgo. exists a'. split; [reflexivity | exact HR]. }
  intros e4 e4' H4. pose proof H4 as (y & -> & Hy).
  cbn [set_acc ex_ms ex_pos]. sgo. sgo.
  - eapply osim_bind; [apply s_check; exact H4|]. intros e5 e5' H5. sgo. split; [exact H5|].
    destruct H5 as (? & -> & _). reflexivity.
  - eapply osim_bind; [apply s_liquidate; exact H4|]. intros e5 e5' H5. sgo. split; [exact H5 | reflexivity].
Qed.

Lemma s_map_out {E A B} (f : A -> B) (m n : checked (exchange * result E A)) :
  osim RX m n -> osim RX (w_map_out f m) (w_map_out f n).
Proof.
  intros H. unfold w_map_out. eapply osim_bind; [exact H|]. intros [e r] [e' r'] [H1 E1]; cbn in H1, E1; subst r'.
  sgo. split; [exact H1 | reflexivity].
Qed.

Lemma s_step c e e' o : RE e e' -> osim RX (g_step L w c e o) (g_step L' w c e' o).
Proof.
  intros H. assert (N : forall x, osim RX (ret (e, Err (A := out) (E := error) x)) (ret (e', Err x)))
    by (intros; apply osim_ret; split; [exact H | reflexivity]).
  unfold g_step. destruct o.
  - sgo. apply s_map_out, s_update_state, H.
  - sgo; [apply s_map_out, s_submit_market, H | apply N].
  - sgo; [apply s_map_out, s_submit_limit, H | apply N].
  - apply s_map_out, s_cancel, H.
  - sgo; [apply s_map_out, s_amend, H | apply N].
  - sgo. eapply osim_bind; [apply s_check; exact H|]. intros e1 e1' H1. sgo. split; [exact H1 | reflexivity].
Qed.

Lemma s_run c ops : forall e e', RE e e' -> osim RX (g_run L w c e ops) (g_run L' w c e' ops).
Proof.
  induction ops as [|o ops IH]; intros e e' H; cbn [g_run].
  - sgo. split; [exact H | reflexivity].
  - eapply osim_bind; [apply s_step; exact H|]. intros [e1 r] [e1' r'] [H1 E1]; cbn in H1, E1; subst r'.
    eapply osim_bind; [apply IH; exact H1|]. intros [e2 rs] [e2' rs'] [H2 E2]; cbn in H2, E2; subst rs'.
    sgo. split; [exact H2 | reflexivity].
Qed.

Lemma s_init c : osim R (l_new L (c_start c)) (l_new L' (c_start c)) -> osim RE (g_init L c) (g_init L' c).
Proof. intros HN. unfold g_init. sgo. apply s_new, HN. Qed.

Lemma s_play c ops :
  osim R (l_new L (c_start c)) (l_new L' (c_start c)) ->
  osim RX (e <~ g_init L c ;; g_run L w c e ops) (e <~ g_init L' c ;; g_run L' w c e ops).
Proof. intros HN. eapply osim_bind; [apply s_init, HN|]. intros e e' H. apply s_run, H. Qed.
End Sim.
