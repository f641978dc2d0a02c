(** The margin requirement of resting orders. *)
From Coq Require Import Permutation Sorted.
From Verif Require Import ProofBase BookLemmas StepLemmas Spec SpecMargin.

(** ** Sorting *)
Lemma insert_by_perm {A} (key : A -> Z) x l : Permutation (insert_by key x l) (x :: l).
Proof.
  induction l as [|y l IH]; cbn; [reflexivity|]. destruct (key x <=? key y); [reflexivity|].
  rewrite IH. constructor.
Qed.
Lemma sort_perm {A} (key : A -> Z) l : Permutation (sort_by_key key l) l.
Proof. induction l as [|x l IH]; cbn; [reflexivity|]. rewrite insert_by_perm, IH. reflexivity. Qed.

Lemma insert_by_sorted {A} (key : A -> Z) x l :
  StronglySorted (fun a b => key a <= key b) l -> StronglySorted (fun a b => key a <= key b) (insert_by key x l).
Proof.
  induction 1 as [|y l Hl IH Hy]; cbn; [repeat constructor|].
  destruct (Z.leb_spec (key x) (key y)).
  - constructor; [constructor; assumption|]. constructor; [assumption|].
    rewrite Forall_forall in *. intros z Hz. specialize (Hy z Hz). lia.
  - constructor; [exact IH|]. rewrite Forall_forall in *. intros z Hz.
    apply (Permutation_in _ (insert_by_perm key x l)) in Hz as [<-|Hz]; [lia | auto].
Qed.
Lemma sort_sorted {A} (key : A -> Z) l : StronglySorted (fun a b => key a <= key b) (sort_by_key key l).
Proof. induction l as [|x l IH]; cbn; [constructor | apply insert_by_sorted; exact IH]. Qed.

Lemma insert_split {A} (key : A -> Z) y x a b :
  StronglySorted (fun u v => key u <= key v) (a ++ x :: b) ->
  exists a' b', insert_by key y (a ++ b) = a' ++ b' /\ insert_by key y (a ++ x :: b) = a' ++ x :: b'.
Proof.
  induction a as [|z a IH]; cbn [app insert_by]; intros Hs.
  - destruct (key y <=? key x) eqn:E.
    + destruct b as [|w b]; cbn [insert_by].
      * exists [y], []. auto.
      * inversion Hs as [|? ? _ Hf]; subst. inversion Hf; subst.
        destruct (Z.leb_spec (key y) (key w)); [exists [y], (w :: b); auto | lia].
    + exists [], (insert_by key y b). auto.
  - inversion Hs; subst. destruct (key y <=? key z); [exists (y :: z :: a), b; auto|].
    destruct IH as (a' & b' & E1 & E2); [assumption|]. rewrite E1, E2. exists (z :: a'), b'. auto.
Qed.
Lemma sort_snoc {A} (key : A -> Z) l x :
  exists a b, sort_by_key key l = a ++ b /\ sort_by_key key (l ++ [x]) = a ++ x :: b.
Proof.
  induction l as [|y l (a & b & E1 & E2)]; cbn; [exists [], []; auto|]. rewrite E1, E2.
  apply insert_split. rewrite <- E2. apply sort_sorted.
Qed.

(** ** The two ways of hedging agree *)
Lemma hedge_0 l : (forall x, In x l -> 0 <= snd x) -> hedge 0 l = l.
Proof.
  induction l as [|[p q] l IH]; cbn [hedge]; intros H; [reflexivity|].
  assert (0 <= q) by (apply (H (p, q)); left; reflexivity).
  rewrite (Z.min_r q 0) by lia. rewrite Z.sub_0_r. cbn. rewrite IH by (intros; apply H; right; assumption). reflexivity.
Qed.
Lemma offset_hedge h l : 0 <= h -> (forall x, In x l -> 0 <= snd x) -> offset_orders h l = hedge h l.
Proof.
  revert h. induction l as [|[p q] l IH]; intros h Hh H; [reflexivity|]. cbn [offset_orders].
  assert (0 <= q) by (apply (H (p, q)); left; reflexivity).
  destruct (Z.ltb_spec 0 h).
  - cbn [hedge]. rewrite umax_max, umin_min. f_equal; [f_equal; lia|].
    apply IH; [lia | intros; apply H; right; assumption].
  - assert (h = 0) by lia. subst. symmetry. apply hedge_0. exact H.
Qed.

Lemma cost_cons k s x l : cost k s (x :: l) = value k s (snd x) (fst x) + cost k s l.
Proof. reflexivity. Qed.
Lemma orders_value_cost k s l : (forall x, In x l -> fst x <> 0) -> orders_value k s l = Done (cost k s l).
Proof.
  induction l as [|[p q] l IH]; intros H; [reflexivity|]. cbn [orders_value].
  assert (p <> 0) by (apply (H (p, q)); left; reflexivity).
  rewrite convert_from_pos by assumption. cbn [bind]. rewrite IH by (intros; apply H; right; assumption).
  cbn [bind]. rewrite cost_cons. reflexivity.
Qed.
Lemma hedge_fst h l x : In x (hedge h l) -> exists y, In y l /\ fst y = fst x.
Proof.
  revert h. induction l as [|[p q] l IH]; intros h H; [contradiction|]. cbn [hedge] in H. destruct H as [<-|H].
  - exists (p, q). split; [left; reflexivity | reflexivity].
  - destruct (IH _ H) as (y & Hy & E). exists y. split; [right; exact Hy | exact E].
Qed.

Lemma side_pairs sd b : side_orders sd b = pairs sd b.
Proof.
  unfold side_orders, pairs. induction b as [|o b IH]; [reflexivity|]. cbn.
  destruct (side_eq_dec (lo_side o) sd); cbn; rewrite <- IH; reflexivity.
Qed.
Lemma pairs_in sd b x : In x (pairs sd b) -> exists o, In o b /\ lo_side o = sd /\ x = (lo_price o, lo_rem o).
Proof.
  unfold pairs. rewrite in_flat_map. intros (o & Ho & H).
  destruct (side_eq_dec (lo_side o) sd); [|contradiction]. destruct H as [<-|[]]. eauto.
Qed.
Lemma pairs_app sd b b' : pairs sd (b ++ b') = pairs sd b ++ pairs sd b'.
Proof. unfold pairs. apply flat_map_app. Qed.
Lemma pairs_perm sd b b' : Permutation b b' -> Permutation (pairs sd b) (pairs sd b').
Proof. intros H. unfold pairs. apply Permutation_flat_map. exact H. Qed.

Definition sorted_side (sd : side) (b : list limit_order) : list (Z * Z) :=
  sort_by_key (fun o => match sd with Buy => - fst o | Sell => fst o end) (pairs sd b).

Lemma sorted_arranged sd b : arranged sd b (sorted_side sd b).
Proof.
  unfold arranged, sorted_side. split; [apply sort_perm|].
  pose proof (sort_sorted (fun o : Z * Z => match sd with Buy => - fst o | Sell => fst o end) (pairs sd b)) as H.
  destruct sd; (induction H as [|x l Hl IH Hx]; constructor; [exact IH|]; rewrite Forall_forall in *;
    intros y Hy; specialize (Hx y Hy); unfold better_eq; lia).
Qed.

Definition req (c : config) (b : list limit_order) (pos : position) : Z :=
  requirement (c_kind c) (c_scale c) (ct_imr (c_spec c)) (position_quantity pos)
    (sorted_side Buy b) (sorted_side Sell b).

Lemma order_margin_internal_eq c b pos :
  good_book b -> pos_ok pos -> (c_dbg c = true -> ct_imr (c_spec c) <= c_scale c) ->
  order_margin c b pos = Done (req c b pos).
Proof.
  intros Hg Hp Hi. unfold order_margin, order_margin_internal.
  assert (Hd : debug_assert (c_dbg c) (ct_imr (c_spec c) <=? c_scale c) PImrDebug = Done tt).
  { unfold debug_assert, assert. destruct (c_dbg c); [|reflexivity].
    destruct (Z.leb_spec (ct_imr (c_spec c)) (c_scale c)); [reflexivity|]. specialize (Hi eq_refl). lia. }
  rewrite Hd. cbn [bind]. rewrite !app_nil_r, !side_pairs.
  assert (HB : forall sd x, In x (sorted_side sd b) -> 0 < snd x /\ 0 < fst x).
  { intros sd x Hx. apply (Permutation_in _ (proj1 (sorted_arranged sd b))) in Hx.
    apply pairs_in in Hx as (o & Ho & _ & ->). cbn. destruct (Hg o Ho). lia. }
  change (sort_by_key (fun o : Z * Z => - fst o) (pairs Buy b)) with (sorted_side Buy b).
  change (sort_by_key (fun o : Z * Z => fst o) (pairs Sell b)) with (sorted_side Sell b).
  assert (H0 : forall sd, hedge 0 (sorted_side sd b) = sorted_side sd b).
  { intros sd. apply hedge_0. intros x Hx. apply HB in Hx. lia. }
  assert (EB : match pos with Short i => offset_orders (pi_qty i) (sorted_side Buy b) | _ => sorted_side Buy b end
               = hedge (Z.max 0 (- position_quantity pos)) (sorted_side Buy b)).
  { destruct pos as [|i|i]; cbn in *.
    - symmetry. apply H0.
    - rewrite Z.max_l by lia. symmetry. apply H0.
    - replace (Z.max 0 (- - pi_qty i)) with (pi_qty i) by lia. apply offset_hedge; [lia|]. intros x Hx. apply HB in Hx; lia. }
  assert (ES : match pos with Long i => offset_orders (pi_qty i) (sorted_side Sell b) | _ => sorted_side Sell b end
               = hedge (Z.max 0 (position_quantity pos)) (sorted_side Sell b)).
  { destruct pos as [|i|i]; cbn in *.
    - symmetry. apply H0.
    - rewrite Z.max_r by lia. apply offset_hedge; [lia|]. intros x Hx. apply HB in Hx; lia.
    - rewrite Z.max_l by lia. symmetry. apply H0. }
  rewrite EB, ES. rewrite !orders_value_cost.
  - cbn [bind]. rewrite umax_max. reflexivity.
  - intros x Hx. apply hedge_fst in Hx as (y & Hy & <-). apply HB in Hy. lia.
  - intros x Hx. apply hedge_fst in Hx as (y & Hy & <-). apply HB in Hy. lia.
Qed.

Lemma with_order_eq c b pos o : order_margin_with_order c b pos o = order_margin c (b ++ [o]) pos.
Proof.
  unfold order_margin_with_order, order_margin, order_margin_internal.
  assert (H : forall sd, side_orders sd b ++ (if side_eq_dec (lo_side o) sd then [(lo_price o, lo_rem o)] else [])
                         = side_orders sd (b ++ [o]) ++ []).
  { intros sd. rewrite app_nil_r, !side_pairs, pairs_app. f_equal. unfold pairs. cbn.
    destruct (side_eq_dec (lo_side o) sd); reflexivity. }
  rewrite !H. reflexivity.
Qed.

(** ** Monotonicity *)
Definition pos_list (l : list (Z * Z)) : Prop := forall x, In x l -> 0 < snd x /\ 0 < fst x.

Lemma value_mono k s q q' p : 0 < s -> 0 < p -> q <= q' -> value k s q p <= value k s q' p.
Proof. intros. apply (conv_mono k s q q' p); assumption. Qed.
Lemma value_nonneg k s q p : 0 < s -> 0 < p -> 0 <= q -> 0 <= value k s q p.
Proof. intros. apply (conv_nonneg k s q p); assumption. Qed.

Lemma hedge_less k s l : 0 < s -> forall h h', h' <= h -> pos_list l -> cost k s (hedge h l) <= cost k s (hedge h' l).
Proof.
  intros Hs. induction l as [|[p q] l IH]; intros h h' Hh Hl; [cbn; lia|]. cbn [hedge]. rewrite !cost_cons. cbn [fst snd].
  destruct (Hl (p, q) (or_introl eq_refl)) as [Hq Hp]. cbn in Hq, Hp.
  pose proof (value_mono k s (q - Z.min q h) (q - Z.min q h') p Hs Hp ltac:(lia)).
  assert (Hl' : pos_list l) by (intros x Hx; apply Hl; right; exact Hx).
  pose proof (IH (h - Z.min q h) (h' - Z.min q h') ltac:(lia) Hl'). lia.
Qed.

Lemma hedge_insert k s a x b : 0 < s -> forall h, 0 <= h -> pos_list (a ++ x :: b) ->
  cost k s (hedge h (a ++ b)) <= cost k s (hedge h (a ++ x :: b)).
Proof.
  intros Hs. induction a as [|[p q] a IH]; intros h Hh Hl; cbn [app hedge].
  - destruct x as [p q]. cbn [hedge]. rewrite cost_cons. cbn [fst snd].
    destruct (Hl (p, q) (or_introl eq_refl)) as [Hq Hp]. cbn in Hq, Hp.
    pose proof (value_nonneg k s (q - Z.min q h) p Hs Hp ltac:(lia)).
    assert (Hl' : pos_list b) by (intros y Hy; apply Hl; right; exact Hy).
    pose proof (hedge_less k s b Hs h (h - Z.min q h) ltac:(lia) Hl'). lia.
  - rewrite !cost_cons. destruct (Hl (p, q) (or_introl eq_refl)) as [Hq Hp]. cbn in Hq, Hp.
    assert (Hl' : pos_list (a ++ x :: b)) by (intros y Hy; apply Hl; right; exact Hy).
    pose proof (IH (h - Z.min q h) ltac:(lia) Hl'). lia.
Qed.

Lemma good_pos_list sd b : good_book b -> pos_list (sorted_side sd b).
Proof.
  intros Hg x Hx. apply (Permutation_in _ (proj1 (sorted_arranged sd b))) in Hx.
  apply pairs_in in Hx as (o & Ho & _ & ->). cbn. destruct (Hg o Ho). lia.
Qed.

Lemma side_cost_snoc k s sd b o h :
  0 < s -> 0 <= h -> good_book (b ++ [o]) ->
  cost k s (hedge h (sorted_side sd b)) <= cost k s (hedge h (sorted_side sd (b ++ [o]))).
Proof.
  intros Hs Hh Hg. pose proof (good_pos_list sd _ Hg) as Hl. unfold sorted_side in *. rewrite pairs_app in *.
  destruct (side_eq_dec (lo_side o) sd) as [E|E].
  - assert (Eo : pairs sd [o] = [(lo_price o, lo_rem o)]) by (unfold pairs; cbn; destruct (side_eq_dec (lo_side o) sd); [reflexivity | contradiction]).
    rewrite Eo in *.
    destruct (sort_snoc (fun o : Z * Z => match sd with Buy => - fst o | Sell => fst o end) (pairs sd b) (lo_price o, lo_rem o))
      as (x & y & E1 & E2).
    rewrite E2 in *. rewrite E1. apply hedge_insert; assumption.
  - assert (Eo : pairs sd [o] = []) by (unfold pairs; cbn; destruct (side_eq_dec (lo_side o) sd); [contradiction | reflexivity]).
    rewrite Eo, app_nil_r. lia.
Qed.

Lemma quot_max_mono s imr a b a' b' :
  0 < s -> 0 <= imr -> a <= a' -> b <= b' -> Z.quot (Z.max a b * imr) s <= Z.quot (Z.max a' b' * imr) s.
Proof. intros. apply Z.quot_le_mono; [assumption|]. apply Z.mul_le_mono_nonneg_r; lia. Qed.

Lemma req_snoc c b o pos :
  0 < c_scale c -> 0 <= ct_imr (c_spec c) -> good_book (b ++ [o]) -> req c b pos <= req c (b ++ [o]) pos.
Proof.
  intros Hs Hi Hg. unfold req, requirement. apply quot_max_mono; try assumption.
  - apply side_cost_snoc; try assumption. lia.
  - apply side_cost_snoc; try assumption. lia.
Qed.

Lemma cost_nonneg k s l : 0 < s -> (forall x, In x l -> 0 <= snd x /\ 0 < fst x) -> 0 <= cost k s l.
Proof.
  intros Hs. induction l as [|[p q] l IH]; intros H; [cbn; lia|]. rewrite cost_cons.
  destruct (H (p, q) (or_introl eq_refl)) as [Hq Hp]. cbn in *.
  pose proof (value_nonneg k s q p Hs Hp Hq). assert (0 <= cost k s l) by (apply IH; intros; apply H; right; assumption). lia.
Qed.
Lemma hedge_bounds h l x : 0 <= h -> pos_list l -> In x (hedge h l) -> 0 <= snd x /\ 0 < fst x.
Proof.
  revert h. induction l as [|[p q] l IH]; intros h Hh Hl Hx; [contradiction|]. cbn [hedge] in Hx.
  destruct (Hl (p, q) (or_introl eq_refl)) as [Hq Hp]. cbn in Hq, Hp. destruct Hx as [<-|Hx]; [cbn; lia|].
  eapply IH; [| |exact Hx]; [lia|]. intros y Hy; apply Hl; right; exact Hy.
Qed.
Lemma req_nonneg c b pos : 0 < c_scale c -> 0 <= ct_imr (c_spec c) -> good_book b -> 0 <= req c b pos.
Proof.
  intros Hs Hi Hg. unfold req, requirement. apply Z.quot_pos; [|assumption]. apply Z.mul_nonneg_nonneg; [|assumption].
  apply Z.max_le_iff. left. apply cost_nonneg; [assumption|]. intros x Hx. eapply hedge_bounds; [| |exact Hx]; [lia|].
  apply good_pos_list; assumption.
Qed.

(** ** Independence of the order of entry *)
Definition exact_list k s g (l : list (Z * Z)) : Prop :=
  forall x, In x l -> (g | snd x) /\ exact_at k s g (fst x).

Lemma value_add k s g p a b :
  s <> 0 -> p <> 0 -> exact_at k s g p -> (g | a) -> (g | b) -> value k s (a + b) p = value k s a p + value k s b p.
Proof.
  intros Hs Hp He [x ->] [y ->]. unfold value, exact_at in *. destruct k; destruct He as [z E].
  - replace ((x * g + y * g) * p) with (((x + y) * z) * s) by (transitivity ((x + y) * (g * p)); [rewrite E|]; ring).
    replace (x * g * p) with ((x * z) * s) by (transitivity (x * (g * p)); [rewrite E|]; ring).
    replace (y * g * p) with ((y * z) * s) by (transitivity (y * (g * p)); [rewrite E|]; ring).
    rewrite !Z.quot_mul by assumption. ring.
  - replace ((x * g + y * g) * s) with (((x + y) * z) * p) by (transitivity ((x + y) * (g * s)); [rewrite E|]; ring).
    replace (x * g * s) with ((x * z) * p) by (transitivity (x * (g * s)); [rewrite E|]; ring).
    replace (y * g * s) with ((y * z) * p) by (transitivity (y * (g * s)); [rewrite E|]; ring).
    rewrite !Z.quot_mul by assumption. ring.
Qed.
Lemma divide_min g a b : (g | a) -> (g | b) -> (g | Z.min a b).
Proof. intros. destruct (Z.min_spec a b) as [[_ ->]|[_ ->]]; assumption. Qed.

Lemma swap_ties k s g h p q1 q2 t :
  0 < s -> 0 < p -> exact_at k s g p -> (g | h) -> (g | q1) -> (g | q2) -> 0 <= q1 -> 0 <= q2 ->
  cost k s (hedge h ((p, q1) :: (p, q2) :: t)) = cost k s (hedge h ((p, q2) :: (p, q1) :: t)).
Proof.
  intros Hs Hp He Hh H1 H2 P1 P2. cbn [hedge]. rewrite !cost_cons. cbn [fst snd].
  assert (E : h - Z.min q1 h - Z.min q2 (h - Z.min q1 h) = h - Z.min q2 h - Z.min q1 (h - Z.min q2 h)).
  { lia. }
  rewrite E. rewrite !Z.add_assoc. f_equal.
  assert (D : forall a b, (g | a) -> (g | b) -> (g | a - b)) by (intros; apply Z.divide_sub_r; assumption).
  rewrite <- !(value_add k s g) by (try lia; try assumption; repeat (apply D || apply divide_min; try assumption)).
  f_equal. lia.
Qed.

Lemma move_front k s g p q a b : 0 < s -> 0 < p -> exact_at k s g p -> forall h, (g | h) -> (g | q) -> 0 <= q ->
  (forall x, In x a -> fst x = p /\ (g | snd x) /\ 0 <= snd x) ->
  cost k s (hedge h ((p, q) :: a ++ b)) = cost k s (hedge h (a ++ (p, q) :: b)).
Proof.
  intros Hs Hp He. induction a as [|[p' q'] a IH]; intros h Hh Hq Hq0 Ha; [reflexivity|].
  destruct (Ha (p', q') (or_introl eq_refl)) as (E & Hq' & Hq0'). cbn in E, Hq', Hq0'. subst p'. cbn [app].
  rewrite (swap_ties k s g) by assumption. cbn [hedge]. rewrite !cost_cons. f_equal.
  rewrite <- (IH (h - Z.min q' h)); [reflexivity | | exact Hq | exact Hq0 | intros x Hx; apply Ha; right; exact Hx].
  apply Z.divide_sub_r; [assumption | apply divide_min; assumption].
Qed.

Lemma arranged_cost k s g sd l1 : 0 < s -> forall l2 h,
  (g | h) -> exact_list k s g l1 -> pos_list l1 ->
  StronglySorted (better_eq sd) l1 -> StronglySorted (better_eq sd) l2 -> Permutation l1 l2 ->
  cost k s (hedge h l1) = cost k s (hedge h l2).
Proof.
  intros Hs. induction l1 as [|[p q] l1 IH]; intros l2 h Hh He Hpl S1 S2 Hp.
  - apply Permutation_nil in Hp. subst. reflexivity.
  - assert (Hin : In (p, q) l2) by (rewrite <- Hp; left; reflexivity).
    apply in_split in Hin as (a & b & ->).
    assert (Hp' : Permutation l1 (a ++ b)) by (apply Permutation_cons_app_inv with (a := (p, q)); exact Hp).
    assert (Ha : forall x, In x a -> fst x = p /\ (g | snd x) /\ 0 <= snd x).
    { intros x Hx. assert (Hx1 : In x l1) by (rewrite Hp'; apply in_or_app; left; exact Hx).
      inversion S1 as [|? ? _ Hf]; subst. rewrite Forall_forall in Hf. specialize (Hf x Hx1).
      assert (Hb : better_eq sd x (p, q)).
      { clear - S2 Hx. induction a as [|y a IH]; [contradiction|]. cbn in S2. inversion S2 as [|? ? S' Hf]; subst.
        destruct Hx as [->|Hx]; [|auto]. rewrite Forall_forall in Hf. apply Hf. apply in_or_app. right; left; reflexivity. }
      split; [destruct sd; unfold better_eq in *; cbn in *; lia|]. split; [apply (He x); right; exact Hx1|]. destruct (Hpl x); [right; exact Hx1 | lia]. }
    destruct (He (p, q) (or_introl eq_refl)) as [Hq Hex]. destruct (Hpl (p, q) (or_introl eq_refl)) as [Hq0 Hp0]. cbn in *.
    rewrite <- (move_front k s g p q a b) by (assumption || lia). cbn [hedge]. rewrite !cost_cons. f_equal.
    apply IH.
    + apply Z.divide_sub_r; [assumption | apply divide_min; assumption].
    + intros x Hx. apply He. right; exact Hx.
    + intros x Hx. apply Hpl. right; exact Hx.
    + inversion S1; assumption.
    + clear - S2. induction a as [|y a IH]; cbn in *; inversion S2 as [|? ? S' Hf]; subst; [assumption|].
      constructor; [auto|]. rewrite Forall_forall in *. intros z Hz. apply Hf. apply in_app_or in Hz as [Hz|Hz]; apply in_or_app; [auto | right; right; exact Hz].
    + exact Hp'.
Qed.

(** Without ties the arrangement is unique. *)
Lemma arranged_unique sd l1 : forall l2,
  NoDup (map fst l1) ->
  StronglySorted (better_eq sd) l1 -> StronglySorted (better_eq sd) l2 -> Permutation l1 l2 -> l1 = l2.
Proof.
  induction l1 as [|x l1 IH]; intros l2 Hn S1 S2 Hp.
  - apply Permutation_nil in Hp. auto.
  - destruct l2 as [|y l2]; [apply Permutation_sym, Permutation_nil in Hp; discriminate|].
    assert (x = y).
    { assert (Hx : In x (y :: l2)) by (rewrite <- Hp; left; reflexivity).
      assert (Hy : In y (x :: l1)) by (rewrite Hp; left; reflexivity).
      destruct Hx as [->|Hx]; [reflexivity|]. destruct Hy as [->|Hy]; [reflexivity|]. exfalso.
      inversion S1 as [|? ? _ F1]; inversion S2 as [|? ? _ F2]; subst. rewrite Forall_forall in *.
      specialize (F1 y Hy). specialize (F2 x Hx). inversion Hn as [|? ? Hni _]; subst. apply Hni.
      replace (fst x) with (fst y) by (destruct sd; unfold better_eq in *; lia). apply in_map; exact Hy. }
    subst y. f_equal. apply IH.
    + inversion Hn; assumption.
    + inversion S1; assumption.
    + inversion S2; assumption.
    + eapply Permutation_cons_inv; exact Hp.
Qed.

Lemma hedge_zero_cost k s l1 l2 : pos_list l1 -> Permutation l1 l2 -> cost k s (hedge 0 l1) = cost k s (hedge 0 l2).
Proof.
  intros Hl Hp. rewrite !hedge_0.
  - unfold cost. assert (H : Permutation (map (fun x => value k s (snd x) (fst x)) l1) (map (fun x => value k s (snd x) (fst x)) l2)) by (apply Permutation_map; exact Hp).
    revert H. generalize (map (fun x => value k s (snd x) (fst x)) l1) (map (fun x => value k s (snd x) (fst x)) l2).
    induction 1 as [|x l l' H IH|x y l|l l' l'' H IH H' IH']; [reflexivity| | |congruence].
    + change (x + sumZ l = x + sumZ l'). rewrite IH. reflexivity.
    + change (y + (x + sumZ l) = x + (y + sumZ l)). lia.
  - intros x Hx. rewrite <- Hp in Hx. apply Hl in Hx. lia.
  - intros x Hx. apply Hl in Hx. lia.
Qed.

Lemma side_any k s g sd b l h :
  0 < s -> good_book b -> arranged sd b l ->
  (h = 0 \/ NoDup (map fst (pairs sd b)) \/ ((g | h) /\ exact_list k s g (pairs sd b))) ->
  cost k s (hedge h l) = cost k s (hedge h (sorted_side sd b)).
Proof.
  intros Hs Hg [Hp Hl] Hc. destruct (sorted_arranged sd b) as [Hp' Hl'].
  assert (Hpp : Permutation (sorted_side sd b) l) by (rewrite Hp', Hp; reflexivity).
  pose proof (good_pos_list sd b Hg) as Hpl. symmetry. destruct Hc as [-> | [Hn | [Hh He]]].
  - apply hedge_zero_cost; assumption.
  - f_equal. f_equal. eapply arranged_unique; try eassumption.
    eapply Permutation_NoDup; [apply Permutation_map; symmetry; exact Hp' | exact Hn].
  - eapply arranged_cost; try eassumption. intros x Hx. apply He. rewrite <- Hp'. exact Hx.
Qed.

Lemma exact_pairs k s g n b sd : exact_book k s g n b -> exact_list k s g (pairs sd b).
Proof. intros [_ H] x Hx. apply pairs_in in Hx as (o & Ho & _ & ->). exact (H o Ho). Qed.

Lemma req_any c g b pos buys sells :
  0 < c_scale c -> good_book b -> arranged Buy b buys -> arranged Sell b sells ->
  (pos = Neutral \/ no_ties b \/ exact_book (c_kind c) (c_scale c) g (position_quantity pos) b) ->
  req c b pos = requirement (c_kind c) (c_scale c) (ct_imr (c_spec c)) (position_quantity pos) buys sells.
Proof.
  intros Hs Hg HB HS Hc. unfold req, requirement. f_equal. f_equal. f_equal; symmetry;
  eapply side_any with (g := g); try eassumption.
  - destruct Hc as [-> | [Hn | He]]; [left; reflexivity | right; left; apply Hn | right; right].
    split; [|eapply exact_pairs; eassumption]. destruct He as [He _]. destruct (Z.max_spec 0 (- position_quantity pos)) as [[_ ->]|[_ ->]]; [apply Z.divide_opp_r; exact He | apply Z.divide_0_r].
  - destruct Hc as [-> | [Hn | He]]; [left; reflexivity | right; left; apply Hn | right; right].
    split; [|eapply exact_pairs; eassumption]. destruct He as [He _]. destruct (Z.max_spec 0 (position_quantity pos)) as [[_ ->]|[_ ->]]; [exact He | apply Z.divide_0_r].
Qed.

Lemma req_perm c g b b' pos :
  0 < c_scale c -> good_book b -> Permutation b b' ->
  (pos = Neutral \/ no_ties b \/ exact_book (c_kind c) (c_scale c) g (position_quantity pos) b) ->
  req c b pos = req c b' pos.
Proof.
  intros Hs Hg Hp Hc. unfold req at 2. eapply req_any with (g := g); try eassumption.
  - destruct (sorted_arranged Buy b') as [H1 H2]. split; [|exact H2]. rewrite H1. symmetry. apply pairs_perm; exact Hp.
  - destruct (sorted_arranged Sell b') as [H1 H2]. split; [|exact H2]. rewrite H1. symmetry. apply pairs_perm; exact Hp.
Qed.

Lemma good_perm b b' : Permutation b b' -> good_book b -> good_book b'.
Proof. intros Hp Hg o Ho. apply Hg. rewrite Hp. exact Ho. Qed.

(** Removing an order, the rest in any order. *)
Lemma req_remove c g b b' o pos :
  0 < c_scale c -> 0 <= ct_imr (c_spec c) -> good_book b -> Permutation b (o :: b') ->
  (pos = Neutral \/ no_ties b \/ exact_book (c_kind c) (c_scale c) g (position_quantity pos) b) ->
  req c b' pos <= req c b pos.
Proof.
  intros Hs Hi Hg Hp Hc. assert (Hp' : Permutation b (b' ++ [o])) by (rewrite Hp; apply Permutation_cons_append).
  rewrite (req_perm c g b (b' ++ [o]) pos Hs Hg Hp' Hc). apply req_snoc; try assumption. eapply good_perm; eassumption.
Qed.
