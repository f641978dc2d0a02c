(** Executions seen through a lens: renamed user order ids, changed times, a larger wallet. *)
From Verif Require Import ProofBase Untracked SpecQuiet UntrackedProof SpecPanic PanicCor SpecView.

(** * Small facts *)
Lemma find_map_order (g : limit_order -> limit_order) (p p' : limit_order -> bool) (b : list limit_order) :
  (forall o, p' (g o) = p o) -> find p' (map g b) = option_map g (find p b).
Proof. intros H. induction b as [|o b IH]; cbn; [reflexivity|]. rewrite H. destruct (p o); [reflexivity | exact IH]. Qed.
Lemma position_map (g : limit_order -> limit_order) (p p' : limit_order -> bool) b :
  (forall o, p' (g o) = p o) -> position_of p' (map g b) = position_of p b.
Proof. intros H. induction b as [|o b IH]; cbn; [reflexivity|]. rewrite H, IH. reflexivity. Qed.
Lemma removelast_map {A B} (g : A -> B) l : removelast (map g l) = map g (removelast l).
Proof. induction l as [|x [|y l] IH]; [reflexivity | reflexivity |]. cbn [map removelast] in *. rewrite IH. reflexivity. Qed.
Lemma swap_map (g : limit_order -> limit_order) b n : swap_remove (map g b) n = map g (swap_remove b n).
Proof.
  unfold swap_remove. cbv zeta. rewrite map_length. destruct (Nat.eqb _ _); [apply removelast_map|].
  rewrite nth_error_map. destruct (nth_error b _); cbn [option_map]; [|reflexivity].
  rewrite map_app. cbn [map]. rewrite removelast_map, firstn_map, skipn_map. reflexivity.
Qed.
Lemma remove_map (g : limit_order -> limit_order) (p p' : limit_order -> bool) b :
  (forall o, p' (g o) = p o) ->
  remove_by p' (map g b) = match remove_by p b with Some (o, b') => Some (g o, map g b') | None => None end.
Proof.
  intros H. unfold remove_by. rewrite (position_map g p p' b H). destruct (position_of p b) as [n|]; [|reflexivity].
  rewrite nth_error_map. destruct (nth_error b n); cbn [option_map]; [rewrite swap_map|]; reflexivity.
Qed.
Lemma replace_map (g : limit_order -> limit_order) b i o : (forall x, lo_id (g x) = lo_id x) ->
  replace_by_id (map g b) i (g o) = map g (replace_by_id b i o).
Proof. intros H. induction b as [|x b IH]; cbn; [reflexivity|]. rewrite H. destruct (_ =? _); cbn; [reflexivity | rewrite IH; reflexivity]. Qed.
Lemma side_map (g : limit_order -> limit_order) sd b :
  (forall x, lo_side (g x) = lo_side x /\ lo_price (g x) = lo_price x /\ lo_rem (g x) = lo_rem x) ->
  side_orders sd (map g b) = side_orders sd b.
Proof.
  intros H. unfold side_orders. induction b as [|x b IH]; cbn; [reflexivity|]. destruct (H x) as (-> & _).
  destruct (side_eq_dec _ _); cbn; [|exact IH]. destruct (H x) as (_ & -> & ->). rewrite IH. reflexivity.
Qed.

Definition dead : list panic_site := book_sites ++ other_sites.


Section View.
Variable l : lens.
Hypothesis inj : forall a b, l_uid l a = l_uid l b -> a = b.
Hypothesis gift : 0 <= l_gift l.
Notation g := (see_order l).
Notation up := (see_acc l).

Definition rel {A B} (R : A -> B -> Prop) (m : outcome A) (m' : outcome B) : Prop :=
  match m with
  | Done a => exists b, m' = Done b /\ R a b
  | Panic w => (0 < l_gift l /\ In w saved) \/ In w dead \/ m' = Panic w
  end.
Lemma rel_bind {A A' B B'} (R : A -> A' -> Prop) (S : B -> B' -> Prop) m m' k k' :
  rel R m m' -> (forall a a', R a a' -> rel S (k a) (k' a')) -> rel S (bind m k) (bind m' k').
Proof.
  intros H1 H2. destruct m as [a|w]; cbn in *.
  - destruct H1 as (b & -> & H1). exact (H2 _ _ H1).
  - destruct H1 as [H1|[H1| ->]]; auto.
Qed.
Lemma rel_same {A B B'} (S : B -> B' -> Prop) (m : outcome A) k k' :
  (forall a, m = Done a -> rel S (k a) (k' a)) -> rel S (bind m k) (bind m k').
Proof. intros H. destruct m; cbn; [apply H; reflexivity | auto]. Qed.
Lemma rel_done {A B} (R : A -> B -> Prop) a b : R a b -> rel R (Done a) (Done b).
Proof. intros H. exists b. auto. Qed.
Lemma rel_panic {A B} (R : A -> B -> Prop) w : rel R (Panic w) (Panic w).
Proof. right; right. reflexivity. Qed.
Lemma rel_dead {A B} (R : A -> B -> Prop) w m' : In w dead -> rel R (Panic w) m'.
Proof. intros H. right; left. exact H. Qed.
Lemma rel_refl {A} (R : A -> A -> Prop) m : (forall a, R a a) -> rel R m m.
Proof. intros H. destruct m; [apply rel_done, H | apply rel_panic]. Qed.

(** * Accounts *)
Lemma balance_other a i : i <> WALLET -> i <> TREASURY -> margin_balance_of (up a) i = margin_balance_of a i.
Proof. destruct i; intros; (reflexivity || congruence). Qed.
Lemma balance_wallet a : margin_balance_of (up a) WALLET = margin_balance_of a WALLET + l_gift l.
Proof. unfold margin_balance_of, net_balance. cbn. lia. Qed.
Lemma equation_see dbg a : debug_assert_accounting_equation dbg (up a) = debug_assert_accounting_equation dbg a.
Proof.
  unfold debug_assert_accounting_equation. f_equal. unfold debit_sum, credit_sum. cbn.
  match goal with |- (?x =? ?y) = (?u =? ?v) => destruct (Z.eqb_spec x y), (Z.eqb_spec u v) end; (reflexivity || lia).
Qed.
Definition RA (a a' : accounts) : Prop := a' = up a.
Lemma transfer_see dbg a x y n : rel RA (transfer dbg a x y n) (transfer dbg (up a) x y n).
Proof.
  unfold transfer. apply rel_same. intros tx _. unfold create_margin_transfer. cbv zeta.
  match goal with |- rel _ (bind (_ _ ?u) _) (bind (_ _ ?v) _) => assert (H : v = up u) end.
  { destruct a, tx as [[] [] n']; unfold see_acc; cbn; unfold post_debit, post_credit; cbn; f_equal; f_equal; lia. }
  rewrite H, equation_see. apply rel_same. intros _ _. apply rel_done. reflexivity.
Qed.
Definition RPA {A} (x x' : A * accounts) : Prop := fst x' = fst x /\ snd x' = up (snd x).

Ltac fin := first [reflexivity | assumption | split; reflexivity | split; [reflexivity | assumption]].
Ltac s1 :=
  match goal with
  | |- rel _ (Done _) (Done _) => apply rel_done; fin
  | |- rel _ (Panic _) (Panic _) => apply rel_panic
  | |- rel _ (bind ?m _) (bind ?m _) => apply rel_same; intros ? ?
  | |- rel _ (bind (transfer _ _ _ _ _) _) (bind (transfer _ _ _ _ _) _) =>
      eapply (rel_bind RA); [apply transfer_see | let H := fresh in intros ? ? H; unfold RA in H; subst]
  | |- context [margin_balance_of (up _) POSITION_MARGIN] => rewrite balance_other by discriminate
  | |- rel _ (match ?x with _ => _ end) (match ?x with _ => _ end) => destruct x
  end.
Ltac sgo := cbv zeta; repeat s1.

Lemma new_see c a q p f : rel RPA (inner_new c a q p f) (inner_new c (up a) q p f).
Proof. unfold inner_new. sgo. Qed.
Lemma increase_see c i a q p f : rel RPA (increase_contracts c i a q p f) (increase_contracts c i (up a) q p f).
Proof. unfold increase_contracts. sgo. Qed.
Lemma decrease_see c i a q p b f : rel RPA (decrease_contracts c i a q p b f) (decrease_contracts c i (up a) q p b f).
Proof.
  unfold decrease_contracts. cbv zeta. do 4 (apply rel_same; intros ? _).
  eapply (rel_bind RA).
  - destruct (_ ?= 0); [apply rel_done; reflexivity | apply transfer_see ..].
  - intros x x' H; unfold RA in H; subst. sgo.
Qed.
Lemma change_see c pos a q p sd f : rel RPA (change_position c pos a q p sd f) (change_position c pos (up a) q p sd f).
Proof.
  unfold change_position. cbv zeta. apply rel_same; intros _ _.
  assert (N : forall x y z w, rel RPA (inner_new c x y z w) (inner_new c (up x) y z w)) by (intros; apply new_see).
  assert (I : forall i x y z w, rel RPA (increase_contracts c i x y z w) (increase_contracts c i (up x) y z w)) by (intros; apply increase_see).
  assert (D : forall i x y z b w, rel RPA (decrease_contracts c i x y z b w) (decrease_contracts c i (up x) y z b w)) by (intros; apply decrease_see).
  Ltac step_pos N I D :=
    match goal with
    | |- rel _ (bind (inner_new _ _ _ _ _) _) _ => eapply (rel_bind RPA); [apply N | intros [? ?] [? ?] [? ?]; cbn [fst snd] in *; subst]
    | |- rel _ (bind (increase_contracts _ _ _ _ _ _) _) _ => eapply (rel_bind RPA); [apply I | intros [? ?] [? ?] [? ?]; cbn [fst snd] in *; subst]
    | |- rel _ (bind (decrease_contracts _ _ _ _ _ _ _) _) _ => eapply (rel_bind RPA); [apply D | intros [? ?] [? ?] [? ?]; cbn [fst snd] in *; subst]
    | _ => s1
    end.
  repeat step_pos N I D.
Qed.

(** * Books *)
Lemma get_see b i : get_by_id (map g b) i = option_map g (get_by_id b i).
Proof. apply find_map_order. reflexivity. Qed.
Lemma insert_see cap b o :
  book_insert cap (map g b) (g o) =
  let (b', r) := book_insert cap b o in (map g b', see_result (option_map g) r).
Proof.
  unfold book_insert. rewrite get_see. change (lo_id (g o)) with (lo_id o). destruct (get_by_id b (lo_id o)); cbn [option_map].
  - rewrite replace_map by reflexivity. reflexivity.
  - rewrite map_length. destruct (_ <=? _); cbn; [reflexivity|]. rewrite map_app. reflexivity.
Qed.
Definition see_by (x : cancel_by) : cancel_by :=
  match x with ByOrderId i => ByOrderId i | ByUserOrderId u => ByUserOrderId (l_uid l u) end.
Lemma uid_see o u : (lo_uid (g o) =? l_uid l u) = (lo_uid o =? u).
Proof. cbn. destruct (Z.eqb_spec (lo_uid o) u) as [->|N]; [apply Z.eqb_refl|]. apply Z.eqb_neq. intros E. apply N, inj, E. Qed.
Definition take (b : list limit_order) (x : cancel_by) : option (limit_order * list limit_order) :=
  match x with ByOrderId i => remove_by_order_id b i | ByUserOrderId u => remove_by_user_order_id b u end.
Lemma take_see b x : take (map g b) (see_by x) = match take b x with Some (o, b') => Some (g o, map g b') | None => None end.
Proof. destruct x; cbn [take see_by]; apply remove_map; intros o; [reflexivity | apply uid_see]. Qed.
Definition RB (b b' : list limit_order) : Prop := b' = map g b.
Lemma remove_see b x : rel RB (om_remove b x) (om_remove (map g b) (see_by x)).
Proof.
  unfold om_remove. fold (take b x). fold (take (map g b) (see_by x)). rewrite take_see.
  destruct (take b x) as [[o b']|]; [apply rel_done; reflexivity | apply rel_panic].
Qed.
Definition RBR (x x' : list limit_order * result error unit) : Prop := fst x' = map g (fst x) /\ snd x' = snd x.
Lemma update_see cap b o : rel RBR (om_update cap b o) (om_update cap (map g b) (g o)).
Proof.
  unfold om_update. change (lo_rem (g o)) with (lo_rem o). apply rel_same. intros _ _. rewrite insert_see.
  destruct (book_insert cap b o) as [b' [[old|]|e]]; cbn [see_result option_map]; try (apply rel_done; fin).
  change (lo_rem (g old)) with (lo_rem old). destruct (limit_order_eq_dec old o) as [->|N]; cbn [assert bind].
  { apply rel_dead. unfold dead, book_sites. cbn. tauto. }
  destruct (lo_rem o <? lo_rem old) eqn:E; cbn [assert bind].
  - destruct (limit_order_eq_dec (g old) (g o)) as [F|_].
    + apply (f_equal lo_rem) in F. cbn in F. lia.
    + cbn. eexists. split; [reflexivity | fin].
  - apply rel_dead. unfold dead, book_sites. cbn. tauto.
Qed.
Lemma eqb_see dbg w a b : In w dead ->
  rel (fun _ _ => True) (debug_assert dbg (orders_eqb a b) w) (debug_assert dbg (orders_eqb (map g a) (map g b)) w).
Proof.
  intros H. unfold orders_eqb. destruct dbg; cbn; [|eexists; split; [reflexivity | exact I]].
  destruct (orders_eq_dec a b) as [->|N]; cbn; [|auto]. destruct (orders_eq_dec (map g b) (map g b)); [eexists; split; [reflexivity | exact I] | congruence].
Qed.
Lemma eqb_see' w a b : In w dead ->
  rel (fun _ _ => True) (assert (orders_eqb a b) w) (assert (orders_eqb (map g a) (map g b)) w).
Proof. apply (eqb_see true). Qed.
Lemma margin_see c b pos : order_margin c (map g b) pos = order_margin c b pos.
Proof. unfold order_margin, order_margin_internal. rewrite !side_map by (intros; auto). reflexivity. Qed.
Lemma margin_with_see c b pos o : order_margin_with_order c (map g b) pos (g o) = order_margin_with_order c b pos o.
Proof. unfold order_margin_with_order, order_margin_internal. rewrite !side_map by (intros; auto). reflexivity. Qed.

(** * States *)
Definition view (q : quiet) (tg : trigger) : quiet :=
  {| qx_ms := see_ms l (qx_ms q); qx_next_id := qx_next_id q; qx_acc := up (qx_acc q); qx_pos := qx_pos q;
     qx_active := map g (qx_active q); qx_om := map g (qx_om q); qx_trig := tg; qx_updates := map (see_update l) (qx_updates q) |}.
Ltac vf := cbn [view put_ms put_next_id put_acc put_pos put_active put_om put_trig put_updates qx_ms qx_next_id qx_acc qx_pos qx_active qx_om qx_trig qx_updates].
Definition SQ (q q' : quiet) : Prop := exists tg, q' = view q tg.
Definition SP {A B} (f : A -> B) (x : quiet * result error A) (x' : quiet * result error B) : Prop :=
  SQ (fst x) (fst x') /\ snd x' = see_result f (snd x).
(** Related unless the call was refused and there is a gift. *)
Definition relx {A B} (f : A -> B) (m : outcome (quiet * result error A)) (m' : outcome (quiet * result error B)) : Prop :=
  match m with
  | Done x => (0 < l_gift l /\ snd x = Err (ERisk NotEnoughAvailableBalance)) \/ exists x', m' = Done x' /\ SP f x x'
  | Panic w => (0 < l_gift l /\ In w saved) \/ In w dead \/ m' = Panic w
  end.
Lemma relx_rel {A B} (f : A -> B) m m' : rel (SP f) m m' -> relx f m m'.
Proof. destruct m; cbn; auto. Qed.
Lemma relx_bind {A A' B B'} (R : A -> A' -> Prop) (f : B -> B') m m' k k' :
  rel R m m' -> (forall a a', R a a' -> relx f (k a) (k' a')) -> relx f (bind m k) (bind m' k').
Proof.
  intros H1 H2. destruct m as [a|w]; cbn in *.
  - destruct H1 as (b & -> & H1). exact (H2 _ _ H1).
  - destruct H1 as [H1|[H1| ->]]; auto.
Qed.
Lemma relx_same {A B B'} (f : B -> B') (m : outcome A) k k' :
  (forall a, m = Done a -> relx f (k a) (k' a)) -> relx f (bind m k) (bind m k').
Proof. intros H. destruct m; cbn; [apply H; reflexivity | auto]. Qed.
Lemma relx_done {A B} (f : A -> B) x x' : SP f x x' -> relx f (Done x) (Done x').
Proof. intros H. right. exists x'. auto. Qed.

Lemma settle_see c q tg o o' : fm_qty o' = fm_qty o -> fm_avg o' = fm_avg o -> fm_side o' = fm_side o ->
  rel SQ (q_settle_filled_market_order c q o) (q_settle_filled_market_order c (view q tg) o').
Proof.
  intros E1 E2 E3. unfold q_settle_filled_market_order. rewrite E1, E2, E3. cbv zeta. do 3 (apply rel_same; intros ? _).
  eapply (rel_bind RPA); [apply change_see|]. intros [pp ac] [pp' ac'] [H1 H2]. cbn in H1, H2. subst. apply rel_done. exists tg. reflexivity.
Qed.

(** The wallet only matters for refusals. *)
Definition RC (r r' : result risk_error unit) : Prop := r' = r \/ (0 < l_gift l /\ r = Err NotEnoughAvailableBalance).
Lemma wallet_le w n : (if w + l_gift l <? n then Err NotEnoughAvailableBalance else Ok tt) =
    (if w <? n then Err NotEnoughAvailableBalance else Ok tt) \/
    (0 < l_gift l /\ (if w <? n then @Err risk_error unit NotEnoughAvailableBalance else Ok tt) = Err NotEnoughAvailableBalance).
Proof. destruct (Z.ltb_spec w n), (Z.ltb_spec (w + l_gift l) n); auto; [|lia]. right. split; [lia | reflexivity]. Qed.
Lemma check_see c pos pm sd q p w : rel RC (check_market_order c pos pm sd q p w) (check_market_order c pos pm sd q p (w + l_gift l)).
Proof.
  assert (O : rel RC (check_market_open c q p w) (check_market_open c q p (w + l_gift l))).
  { unfold check_market_open. cbv zeta. apply rel_same. intros n _. apply rel_done, wallet_le. }
  assert (R : forall i, rel RC (check_market_reduce c i pm q p w) (check_market_reduce c i pm q p (w + l_gift l))).
  { intros i. unfold check_market_reduce. cbv zeta. destruct (q <=? pi_qty i); [apply rel_done; left; reflexivity|].
    apply rel_same. intros n _. apply rel_done. replace (w + l_gift l + pm) with (w + pm + l_gift l) by lia. apply wallet_le. }
  destruct sd, pos; (exact O || apply R).
Qed.
Lemma check_limit_see c pos o w b : rel RC (check_limit_order c pos o w b) (check_limit_order c pos (g o) (w + l_gift l) (map g b)).
Proof.
  unfold check_limit_order. rewrite margin_see, margin_with_see. apply rel_same; intros om _. apply rel_same; intros om' _. apply rel_done.
  replace (w + l_gift l + om) with (w + om + l_gift l) by lia. apply wallet_le.
Qed.
Lemma wallet_see a : rel (fun _ _ => True) (assert_user_wallet_balance a) (assert_user_wallet_balance (up a)).
Proof.
  unfold assert_user_wallet_balance. rewrite balance_wallet. destruct (Z.leb_spec 0 (margin_balance_of a WALLET)), (Z.leb_spec 0 (margin_balance_of a WALLET + l_gift l)); cbn; eauto; try lia.
  left. split; [lia | cbn; auto].
Qed.

Lemma market_see c q tg o o' : nm_qty o' = nm_qty o -> nm_side o' = nm_side o ->
  relx (see_market_as l (nm_uid o')) (q_submit_market_order c q o) (q_submit_market_order c (view q tg) o').
Proof.
  intros E1 E2. unfold q_submit_market_order. rewrite E1, E2. cbv zeta. apply relx_same. intros [[]|err] _.
  2: { apply relx_done. split; [exists tg; reflexivity | reflexivity]. }
  cbn [put_next_id view qx_ms qx_next_id qx_acc qx_pos see_ms ms_ask ms_bid ms_ts]. rewrite balance_wallet, balance_other by discriminate.
  eapply (relx_bind RC); [apply check_see|]. intros r r' [->|[G ->]].
  2: { left. split; [exact G | reflexivity]. }
  destruct r as [[]|err].
  2: { apply relx_done. split; [exists tg; reflexivity | reflexivity]. }
  eapply (relx_bind SQ).
  - match goal with |- rel _ _ (q_settle_filled_market_order _ ?x _) => change x with (view (put_next_id q (qx_next_id q + 1)) tg) end.
    apply settle_see; cbn; (reflexivity || assumption).
  - intros q1 q1' H1. apply relx_done. split; [exact H1|]. cbn [snd see_result]. unfold market_into_filled, see_market_as. cbn. rewrite E1, E2. reflexivity.
Qed.
Lemma liq_see c q tg : rel SQ (q_liquidate c q) (q_liquidate c (view q tg)).
Proof.
  unfold q_liquidate. cbn [view qx_pos]. apply rel_same. intros o _.
  pose proof (market_see c q tg o o eq_refl eq_refl) as H. cbn [view] in H. fold (view q tg) in *.
  destruct (q_submit_market_order c q o) as [[q1 r]|w]; cbn in *.
  - destruct H as [[G ->]|([q1' r'] & -> & H1 & H2)]; [left; split; [exact G | cbn; auto]|]. cbn in *. subst r'.
    destruct r; cbn [see_result bind]; [apply rel_done; exact H1 | apply rel_panic].
  - destruct H as [H|[H|H]]; [left; exact H | right; left; exact H|]. right; right.
    change (bind (q_submit_market_order c (view q tg) o) (fun x => let '(e1, r) := x in match r with Ok _ => Done e1 | Err _ => Panic PLiquidateSubmit end) = Panic w).
    unfold view in *. rewrite H. reflexivity.
Qed.
Lemma append_see c q tg o : rel (SP (fun u : unit => u)) (q_append_limit_order c q o) (q_append_limit_order c (view q tg) (g o)).
Proof.
  unfold q_append_limit_order, q_computed_order_margin. cbn [view qx_om]. eapply (rel_bind RBR); [apply update_see|].
  intros [om r] [om' r'] [H1 H2]. cbn in H1, H2. subst. cbv zeta. destruct r as [u|err].
  2: { apply rel_done. split; [exists tg; reflexivity | reflexivity]. }
  cbn [put_om view qx_active]. rewrite insert_see. destruct (book_insert _ _ o) as [act r]. destruct r as [x|err]; cbn [see_result].
  2: { apply rel_done. split; [exists tg; reflexivity | reflexivity]. }
  vf. rewrite margin_see. apply rel_same. intros n _. rewrite balance_other by discriminate.
  destruct (n ?= _).
  { apply rel_done. split; [exists tg; reflexivity | reflexivity]. }
  all: cbv beta iota; vf;
    (eapply (rel_bind RA); [apply transfer_see|]); intros a a' HA; unfold RA in HA; subst a';
    (eapply rel_bind; [apply eqb_see'; unfold dead, book_sites; cbn; tauto|]); intros _ _ _;
    rewrite balance_other by discriminate;
    (eapply (rel_bind eq); [destruct act; cbn [map]; apply rel_refl; reflexivity|]); intros _ _ _;
    (eapply rel_bind; [apply wallet_see|]); intros _ _ _; apply rel_done; split; [exists tg; reflexivity | reflexivity].
Qed.
Definition see_new (o : new_limit) : new_limit :=
  {| nl_uid := l_uid l (nl_uid o); nl_side := nl_side o; nl_price := nl_price o; nl_rem := nl_rem o |}.
Lemma submit_see c q tg o : relx g (q_submit_limit_order c q o) (q_submit_limit_order c (view q tg) (see_new o)).
Proof.
  unfold q_submit_limit_order. cbn [see_new nl_rem nl_price]. apply relx_same. intros [u|err] _.
  2: { apply relx_done. split; [exists tg; reflexivity | reflexivity]. }
  cbn [view qx_ms see_ms mid_price ms_bid ms_ask]. change (mid_price (see_ms l (qx_ms q))) with (mid_price (qx_ms q)).
  apply relx_same. intros [u'|err] _.
  2: { apply relx_done. split; [exists tg; reflexivity | reflexivity]. }
  cbv zeta. vf. rewrite balance_wallet.
  match goal with |- context [limit_into_pending (see_new o) ?i ?t] => change (limit_into_pending (see_new o) i t) with (g (limit_into_pending o i (ms_ts (qx_ms q)))) end.
  set (po := limit_into_pending o (qx_next_id q) (ms_ts (qx_ms q))).
  eapply (relx_bind RC); [apply check_limit_see|]. intros r r' [->|[G ->]].
  2: { left. split; [exact G | reflexivity]. }
  destruct r as [u2|err].
  2: { apply relx_done. split; [exists tg; reflexivity | reflexivity]. }
  change (marketable (see_ms l (qx_ms q)) (g po)) with (marketable (qx_ms q) po). destruct (marketable (qx_ms q) po).
  { apply relx_done. split; [exists tg; reflexivity | reflexivity]. }
  match goal with |- relx _ _ (bind (q_append_limit_order _ ?x _) _) => change x with (view (put_next_id q (qx_next_id q + 1)) tg) end.
  eapply (relx_bind (SP (fun u => u))); [apply append_see|]. intros [q1 a] [q1' a'] [H1 H2]. cbn in *. subst a'. destruct a; apply relx_done; split; (exact H1 || reflexivity).
Qed.
Lemma cancel_see c q tg x : rel (SP g) (q_cancel_limit_order c q x) (q_cancel_limit_order c (view q tg) (see_by x)).
Proof.
  unfold q_cancel_limit_order, q_computed_order_margin. vf. rewrite balance_other by discriminate. cbv zeta. rewrite margin_see.
  do 2 (apply rel_same; intros ? _). vf. pose proof (take_see (qx_active q) x) as T. destruct x as [i|u]; cbn [take see_by] in *; rewrite T; clear T.
  1: destruct (remove_by_order_id (qx_active q) i) as [[o b]|]; [|apply rel_done; split; [exists tg; reflexivity | reflexivity]].
  2: destruct (remove_by_user_order_id (qx_active q) u) as [[o b]|]; [|apply rel_done; split; [exists tg; reflexivity | reflexivity]].
  all: vf;
    (eapply (rel_bind RB); [first [apply (remove_see _ (ByOrderId i)) | apply (remove_see _ (ByUserOrderId u))]|]); intros om om' HB; unfold RB in HB; subst om';
    vf; rewrite margin_see; do 2 (apply rel_same; intros ? _);
    (eapply (rel_bind SQ);
     [ destruct (_ <? _);
       [ eapply (rel_bind RA); [apply transfer_see|]; intros ac ac' HA; unfold RA in HA; subst ac'; apply rel_done; exists tg; reflexivity
       | apply rel_done; exists tg; reflexivity ]
     | intros q1 q1' [tg' ->]; vf; rewrite balance_other by discriminate;
       (eapply rel_bind; [apply eqb_see'; unfold dead, book_sites; cbn; tauto|]); intros _ _ _;
       (eapply (rel_bind eq); [destruct (qx_active q1); cbn [map]; apply rel_refl; reflexivity|]); intros _ _ _;
       apply rel_done; split; [exists tg'; reflexivity | reflexivity] ]).
Qed.
Lemma amend_see c q tg i o : relx g (q_amend_limit_order c q i o) (q_amend_limit_order c (view q tg) i (see_new o)).
Proof.
  unfold q_amend_limit_order. cbn [view qx_active qx_next_id]. fold (view q tg). rewrite get_see. destruct (get_by_id (qx_active q) i) as [x|]; cbn [option_map].
  2: { apply relx_done. split; [exists tg; reflexivity | reflexivity]. }
  change (lo_total_quantity (g x)) with (lo_total_quantity x). apply relx_same. intros n _. cbv zeta.
  change (lo_rem (g x)) with (lo_rem x). change (nl_rem (see_new o)) with (nl_rem o). destruct (_ <=? 0).
  - apply relx_rel. eapply (rel_bind (SP g)); [apply (cancel_see c q tg (ByOrderId i))|]. intros [q1 r] [q1' r'] [H1 H2]. cbn in *. subst r'.
    destruct r; [apply rel_done; split; [exact H1 | reflexivity] | apply rel_panic].
  - unfold set_remaining_quantity. destruct (0 <? _); cbn [assert bind]; [|right; right; reflexivity].
    eapply (relx_bind (SP g)); [apply (cancel_see c q tg (ByOrderId i))|]. intros [q1 r] [q1' r'] [H1 H2]. cbn in H1, H2. subst r'.
    destruct r; [|apply relx_done; split; [exact H1 | reflexivity]]. destruct H1 as [tg' ->]. cbn [see_result].
    match goal with |- relx g (q_submit_limit_order _ _ ?y) _ => apply (submit_see c q1 tg' y) end.
Qed.

(** * Market updates *)
Definition see_smart (s : smart_candle) : smart_candle :=
  {| sc_high := sc_high s; sc_low := sc_low s; sc_buys := sc_buys s; sc_sells := sc_sells s; sc_bba := see_bba l (sc_bba s); sc_ts := l_time l (sc_ts s) |}.
Definition see_mu (u : market_update) : market_update :=
  match u with UBba b => UBba (see_bba l b) | UTrade t => UTrade (see_trade l t) | UCandle k => UCandle (see_candle l k) | USmart s => USmart (see_smart s) end.
Lemma any_see f ts : any_valid f (map (see_trade l) ts) = any_valid f ts.
Proof. induction ts as [|t ts IH]; cbn [any_valid map]; [reflexivity|]. change (validate_trade f (see_trade l t)) with (validate_trade f t). destruct (validate_trade f t) as [[]|]; cbn; [reflexivity | exact IH | reflexivity]. Qed.
Lemma trades_see sd ts : trades_of sd (map (see_trade l) ts) = trades_of sd ts.
Proof. unfold trades_of. induction ts as [|t ts IH]; cbn; [reflexivity|]. destruct (side_eq_dec _ _); cbn; rewrite IH; reflexivity. Qed.
Lemma fold_see (h : Z -> Z -> Z) ts : forall a, fold_left (fun a t => h a (tr_price t)) (map (see_trade l) ts) a = fold_left (fun a t => h a (tr_price t)) ts a.
Proof. induction ts as [|t ts IH]; intros; cbn; [reflexivity | apply IH]. Qed.
Lemma last_see ts : forall t, tr_ts (last (map (see_trade l) ts) (see_trade l t)) = l_time l (tr_ts (last ts t)).
Proof. induction ts as [|x [|y ts] IH]; intros t; [reflexivity | reflexivity|]. exact (IH t). Qed.
Lemma build_see dbg r : rel (fun u u' => u' = see_mu u) (build_update dbg r) (build_update dbg (see_raw l r)).
Proof.
  destruct r as [b|t|k|ts b f]; try (apply rel_done; reflexivity). cbn [build_update see_raw].
  eapply (rel_bind (fun s s' => s' = see_smart s)); [|intros s s' ->; apply rel_done; reflexivity].
  unfold smart_candle_new. destruct ts as [|t ts]; [apply rel_panic|]. cbn [map]. change (see_trade l t :: map (see_trade l) ts) with (map (see_trade l) (t :: ts)).
  set (tl := t :: ts). rewrite any_see. change (validate_bba f (see_bba l b)) with (validate_bba f b). do 3 (apply rel_same; intros ? _).
  assert (FA : forallb (fun x => 0 <? tr_qty x) (map (see_trade l) tl) = forallb (fun x => 0 <? tr_qty x) tl).
  { clear. clearbody tl. induction tl as [|x tl IH]; cbn; [reflexivity | rewrite IH; reflexivity]. }
  rewrite FA. apply rel_same. intros _ _. cbv zeta. rewrite !trades_see, last_see.
  rewrite (fold_see (fun a p => if p <? a then p else a) tl), (fold_see (fun a p => if a <? p then p else a) tl). apply rel_done. reflexivity.
Qed.
Lemma ts_see u : update_ts (see_mu u) = l_time l (update_ts u).
Proof. destruct u; reflexivity. Qed.
Lemma filled_see dbg u o : limit_order_filled dbg (see_mu u) (g o) = limit_order_filled dbg u o.
Proof. destruct u; reflexivity. Qed.
Lemma ms_see dbg f u m : rel (fun a a' => a' = see_ms l a) (market_update_state dbg f u m) (market_update_state dbg f (see_mu u) (see_ms l m)).
Proof.
  unfold market_update_state. assert (V : validate_market_update f (see_mu u) = validate_market_update f u) by (destruct u; reflexivity). rewrite V.
  apply rel_same. intros _ _. apply rel_done. rewrite ts_see. destruct u; reflexivity.
Qed.
Definition ROF (x x' : limit_order * option filled_limit) : Prop := fst x' = g (fst x) /\ snd x' = option_map (see_filled l) (snd x).
Lemma fill_order_see s o q t : rel ROF (order_fill s o q t) (order_fill s (g o) q (l_time l t)).
Proof.
  unfold order_fill. cbn [see_order lo_rem lo_price lo_filled lo_uid lo_side lo_id lo_ts]. do 2 (apply rel_same; intros ? _). cbv zeta.
  destruct (lo_filled o) as [|cum avg]; [|apply rel_same; intros ? _]; (destruct (_ =? _); apply rel_done; split; reflexivity).
Qed.
Definition SF (x x' : quiet * list Z * limit_order) : Prop := SQ (fst (fst x)) (fst (fst x')) /\ snd (fst x') = snd (fst x) /\ snd x' = g (snd x).
Lemma fill_see c u q tg ids o : rel SF (q_fill_one c u q ids o) (q_fill_one c (see_mu u) (view q tg) ids (g o)).
Proof.
  unfold q_fill_one, q_computed_order_margin. cbv zeta. rewrite filled_see. apply rel_same. intros [n|] _.
  2: { apply rel_done. split; [exists tg; reflexivity | split; reflexivity]. }
  apply rel_same. intros _ _. vf. rewrite balance_other by discriminate. rewrite margin_see. apply rel_same. intros _ _.
  rewrite ts_see. eapply (rel_bind ROF); [apply fill_order_see|]. intros [o1 f] [o1' f'] [H1 H2]. cbn [fst snd] in H1, H2. subst o1' f'.
  eapply (rel_bind (fun x x' => SQ (fst x) (fst x') /\ snd x' = snd x)).
  { destruct f as [fo|]; cbn [option_map].
    - eapply (rel_bind RB); [apply (remove_see _ (ByOrderId (lo_id o1)))|]. intros b b' HB. unfold RB in HB. subst b'. apply rel_done. split; [|reflexivity].
      exists tg. unfold view. cbn. rewrite map_app. reflexivity.
    - change (lo_rem (g o1)) with (lo_rem o1). apply rel_same. intros _ _. eapply (rel_bind RBR); [apply update_see|]. intros [b r] [b' r'] [HB HR]. cbn [fst snd] in HB, HR. subst b' r'.
      destruct r; [|apply rel_panic]. apply rel_done. split; [|reflexivity]. exists tg. unfold view. cbn. rewrite map_app. reflexivity. }
  intros [q1 i1] [q1' i1'] [[tg1 HQ] HI]. cbn [fst snd] in HQ, HI. subst q1' i1'. cbn [see_order lo_price lo_side view qx_acc qx_pos]. apply rel_same. intros v _.
  eapply (rel_bind RPA); [apply change_see|]. intros [p a] [p' a'] [HP HA]. cbn [fst snd] in HP, HA. subst p' a'.
  vf. rewrite margin_see. apply rel_same. intros m _. apply rel_same. intros _ _.
  eapply (rel_bind SQ).
  { destruct (_ <? _).
    - eapply (rel_bind RA); [apply transfer_see|]. intros a1 a1' HA. unfold RA in HA. subst a1'. apply rel_done. exists tg1. reflexivity.
    - apply rel_done. exists tg1. reflexivity. }
  intros q2 q2' HQ. apply rel_done. split; [exact HQ | split; reflexivity].
Qed.
Definition SL (x x' : quiet * list Z * list limit_order) : Prop := SQ (fst (fst x)) (fst (fst x')) /\ snd (fst x') = snd (fst x) /\ snd x' = map g (snd x).
Lemma loop_see c u : forall b q tg ids, rel SL (q_fill_loop c u q ids b) (q_fill_loop c (see_mu u) (view q tg) ids (map g b)).
Proof.
  induction b as [|o b IH]; intros; cbn [q_fill_loop map].
  { apply rel_done. split; [exists tg; reflexivity | split; reflexivity]. }
  eapply (rel_bind SF); [apply fill_see|]. intros [[q1 i1] o1] [[q1' i1'] o1'] ([tg1 H1] & H2 & H3). cbn [fst snd] in *. subst.
  eapply (rel_bind SL); [apply IH|]. intros [[q2 i2] b2] [[q2' i2'] b2'] (H1 & H2 & H3). cbn [fst snd] in *. subst.
  apply rel_done. split; [exact H1 | split; reflexivity].
Qed.
Lemma executed_see : forall ids b, rel RB (remove_executed ids b) (remove_executed ids (map g b)).
Proof.
  induction ids as [|i ids IH]; intros; cbn [remove_executed]; [apply rel_done; reflexivity|].
  change (remove_by_order_id b i) with (take b (ByOrderId i)). change (remove_by_order_id (map g b) i) with (take (map g b) (see_by (ByOrderId i))). rewrite take_see.
  destruct (take b (ByOrderId i)) as [[o b']|]; [apply IH | apply rel_panic].
Qed.
Lemma check_active_see c q tg u : rel SQ (q_check_active_orders c q u) (q_check_active_orders c (view q tg) (see_mu u)).
Proof.
  unfold q_check_active_orders, q_computed_order_margin. cbv zeta. assert (C : can_fill (see_mu u) = can_fill u) by (destruct u; reflexivity). rewrite C.
  change (put_updates (view q tg) []) with (view (put_updates q []) tg). destruct (negb (can_fill u)); [apply rel_done; exists tg; reflexivity|].
  set (q0 := put_updates q []). clearbody q0. eapply rel_bind; [apply eqb_see; unfold dead, book_sites; cbn; tauto|]. intros _ _ _.
  eapply (rel_bind SL); [apply (loop_see c u (qx_active q0) q0 tg [])|]. intros [[q1 i1] b] [[q1' i1'] b'] ([tg1 H1] & H2 & H3). cbn [fst snd] in *. subst.
  eapply (rel_bind RB); [apply executed_see|]. intros ac ac' HB. unfold RB in HB. subst ac'.
  vf. eapply rel_bind; [apply eqb_see; unfold dead, book_sites; cbn; tauto|]. intros _ _ _.
  rewrite balance_other by discriminate. eapply (rel_bind eq); [destruct ac; cbn [map]; apply rel_refl; reflexivity|]. intros _ _ _. rewrite margin_see.
  apply rel_same. intros _ _. eapply rel_bind; [apply wallet_see|]. intros _ _ _. apply rel_done. exists tg1. reflexivity.
Qed.
Lemma upd_see c q tg u : rel (SP (map (see_update l))) (q_update_state c q u) (q_update_state c (view q tg) (see_mu u)).
Proof.
  unfold q_update_state. cbn [view qx_ms]. fold (view q tg). eapply rel_bind; [apply ms_see|]. intros m m' ->. cbv zeta. cbn [put_ms qx_trig view].
  destruct (should_trigger (qx_trig q) (update_ts u)) as [t1 f1]. destruct (should_trigger tg (update_ts (see_mu u))) as [t2 f2].
  set (x := if f1 then put_trig (put_ms q m) t1 else _). set (x' := if f2 then _ else _).
  assert (E : x' = view x t2) by (subst x x'; destruct f1, f2; reflexivity). rewrite E. clearbody x. clear x' E.
  cbn [view qx_ms qx_pos see_ms ms_bid ms_ask]. fold (view x t2). destruct (check_maintenance_margin _ _ _ _).
  - eapply (rel_bind SQ); [apply check_active_see|]. intros x1 x1' [t3 ->]. apply rel_done. split; [exists t3; reflexivity | reflexivity].
  - eapply (rel_bind SQ); [apply liq_see|]. intros x1 x1' H. apply rel_done. split; [exact H | reflexivity].
Qed.

(** * Calls and histories *)
Lemma out_see {A A'} (f : A -> A') (k : A -> out) (k' : A' -> out) m m' :
  (forall x, match m with Done (_, Ok a) => a = x | _ => False end -> k' (f x) = see_out l (k x)) ->
  relx f m m' -> relx (see_out l) (map_out k m) (map_out k' m').
Proof.
  intros E H. destruct m as [[q r]|w]; cbn in *.
  - destruct H as [[G H]|([q' r'] & -> & H1 & H2)]; [left; split; [exact G | subst; reflexivity]|]. right. cbn in *. subst r'.
    eexists. split; [reflexivity|]. split; [exact H1|]. destruct r; cbn; [rewrite (E a eq_refl)|]; reflexivity.
  - destruct H as [H|[H| ->]]; auto.
Qed.
Lemma market_uid c q o q1 r : q_submit_market_order c q o = Done (q1, Ok r) -> fm_uid r = nm_uid o.
Proof.
  unfold q_submit_market_order. intros H. apply bind_done in H as [[[]|e] [_ H]]; [|discriminate]. cbv zeta in H.
  apply bind_done in H as [[[]|e] [_ H]]; [|discriminate]. apply bind_done in H as [q2 [_ H]]. injection H as _ <-. reflexivity.
Qed.
Lemma step_see c q tg o : relx (see_out l) (q_step c q o) (q_step c (view q tg) (see_op l o)).
Proof.
  destruct o as [ru|sd n uid|sd p n uid|b|i sd p n uid|ru]; cbn [q_step see_op].
  - eapply relx_bind; [apply build_see|]. intros u u' ->. eapply out_see; [|apply relx_rel, upd_see]. reflexivity.
  - unfold market_new. destruct (n <=? 0); [apply relx_done; split; [exists tg; reflexivity | reflexivity]|].
    eapply out_see; [|apply market_see; reflexivity]. intros x H. destruct (q_submit_market_order _ _ _) as [[q1 [a|]]|] eqn:E; try contradiction.
    subst a. apply market_uid in E. cbn in *. unfold see_market. rewrite E. reflexivity.
  - unfold limit_new. destruct (p <=? 0); [|destruct (n <=? 0)]; try (apply relx_done; split; [exists tg; reflexivity | reflexivity]).
    eapply out_see; [|apply (submit_see c q tg {| nl_uid := uid; nl_side := sd; nl_price := p; nl_rem := n |})]. reflexivity.
  - destruct b as [i|u]; (eapply out_see; [|apply relx_rel; first [apply (cancel_see c q tg (ByOrderId i)) | apply (cancel_see c q tg (ByUserOrderId u))]]); reflexivity.
  - unfold limit_new. destruct (p <=? 0); [|destruct (n <=? 0)]; try (apply relx_done; split; [exists tg; reflexivity | reflexivity]).
    eapply out_see; [|apply (amend_see c q tg i {| nl_uid := uid; nl_side := sd; nl_price := p; nl_rem := n |})]. reflexivity.
  - eapply relx_bind; [apply build_see|]. intros u u' ->. apply relx_rel. eapply (rel_bind SQ); [apply check_active_see|]. intros x x' H.
    apply rel_done. split; [exact H | reflexivity].
Qed.
Lemma run_see c : forall ops q tg,
  match q_run c q ops with
  | Done (q1, rs) => (0 < l_gift l /\ Exists refused rs) \/
      exists tg1, q_run c (view q tg) (map (see_op l) ops) = Done (view q1 tg1, map (see_result (see_out l)) rs)
  | Panic w => 0 < l_gift l \/ In w dead \/ q_run c (view q tg) (map (see_op l) ops) = Panic w
  end.
Proof.
  induction ops as [|o ops IH]; intros q tg; cbn [q_run map]; [right; exists tg; reflexivity|].
  pose proof (step_see c q tg o) as H. destruct (q_step c q o) as [[q1 r]|w]; cbn [bind].
  - destruct H as [[G H]|([q1' r'] & H & [tg1 HQ] & HR)].
    + destruct (q_run c q1 ops) as [[q2 rs]|w]; cbn; [left; split; [exact G | left; exact H] | left; exact G].
    + cbn [fst snd] in HQ, HR. subst. rewrite H. cbn [bind]. specialize (IH q1 tg1). destruct (q_run c q1 ops) as [[q2 rs]|w]; cbn [bind].
      * destruct IH as [[G H']|[tg2 ->]]; [left; split; [exact G | right; exact H'] | right; exists tg2; reflexivity].
      * destruct IH as [G|[D| ->]]; auto.
  - destruct H as [[G _]|[D| ->]]; auto.
Qed.
End View.
