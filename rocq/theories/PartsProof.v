(** The parts of the exchange for any arguments. *)
From Coq Require Import Permutation.
From Verif Require Import ProofBase OrderBook OrderMargin Tracker Currency Stats SpecParts.

(** ** The book *)
Lemma find_first {p : limit_order -> bool} {P : limit_order -> Prop} (HP : forall x, p x = true <-> P x) b o :
  find p b = Some o <-> exists l r, first_in P b l o r.
Proof.
  unfold first_in. split.
  - induction b as [|x b IH]; cbn; [discriminate|]. destruct (p x) eqn:E.
    + intros H. injection H as <-. exists [], b. refine (conj eq_refl (conj _ _)); [apply HP; exact E | intros ? []].
    + intros H. destruct (IH H) as (l & r & -> & A & B). exists (x :: l), r. refine (conj eq_refl (conj A _)).
      intros y [<-|Y]; [intros C; apply HP in C; congruence | exact (B y Y)].
  - intros (l & r & -> & A & B). induction l as [|x l IH]; cbn.
    + rewrite (proj2 (HP o) A). reflexivity.
    + destruct (p x) eqn:E; [exfalso; apply (B x (or_introl eq_refl)), HP, E|]. apply IH. intros y Y. apply B. right. exact Y.
Qed.
Lemma find_nothing {p : limit_order -> bool} {P : limit_order -> Prop} (HP : forall x, p x = true <-> P x) b : find p b = None <-> none_in P b.
Proof.
  unfold none_in. induction b as [|x b IH]; cbn; [split; [intros _ ? [] | reflexivity]|]. destruct (p x) eqn:E.
  - split; [discriminate|]. intros H. exfalso. apply (H x (or_introl eq_refl)), HP, E.
  - rewrite IH. split; intros H y; [intros [<-|Y]; [intros C; apply HP in C; congruence | exact (H y Y)] | intros Y; apply H; right; exact Y].
Qed.
Lemma id_is i x : (lo_id x =? i) = true <-> has_id i x.
Proof. apply Z.eqb_eq. Qed.
Lemma uid_is u x : (lo_uid x =? u) = true <-> has_uid u x.
Proof. apply Z.eqb_eq. Qed.
Lemma get_exact b i : (forall o, get_by_id b i = Some o <-> exists l r, first_in (has_id i) b l o r) /\ (get_by_id b i = None <-> none_in (has_id i) b).
Proof. split; [intros o; apply (find_first (id_is i)) | apply (find_nothing (id_is i))]. Qed.
Lemma replace_first i new : forall b l o r, first_in (has_id i) b l o r -> replace_by_id b i new = l ++ new :: r.
Proof.
  intros b l o r (-> & A & B). induction l as [|x l IH]; cbn.
  - unfold has_id in A. rewrite (proj2 (Z.eqb_eq _ _) A). reflexivity.
  - destruct (Z.eqb_spec (lo_id x) i) as [E|E]; [exfalso; exact (B x (or_introl eq_refl) E)|]. f_equal. apply IH. intros y Y. apply B. right. exact Y.
Qed.
Lemma first_unique (P : limit_order -> Prop) b l o r l' o' r' : first_in P b l o r -> first_in P b l' o' r' -> l = l' /\ o = o' /\ r = r'.
Proof.
  intros (-> & A & B) (E & A' & B'). revert l' E B'. induction l as [|x l IH]; intros [|x' l'] E B'; cbn in E; injection E as E1 E2.
  - subst. auto.
  - subst x'. exfalso. exact (B' o (or_introl eq_refl) A).
  - subst x. exfalso. exact (B o' (or_introl eq_refl) A').
  - subst x'. destruct (IH (fun y Y => B y (or_intror Y)) l' E2 (fun y Y => B' y (or_intror Y))) as (-> & -> & ->). auto.
Qed.
Lemma insert_exact cap b o :
  (forall l old r, first_in (has_id (lo_id o)) b l old r -> book_insert cap b o = (l ++ o :: r, Ok (Some old))) /\
  (none_in (has_id (lo_id o)) b ->
     (cap <= Z.of_nat (length b) -> book_insert cap b o = (b, Err EMaxNumberOfActiveOrders)) /\
     (Z.of_nat (length b) < cap -> book_insert cap b o = (b ++ [o], Ok None))).
Proof.
  unfold book_insert. split.
  - intros l old r F. rewrite (proj2 (proj1 (get_exact b (lo_id o)) old) (ex_intro _ l (ex_intro _ r F))), (replace_first _ o _ _ _ _ F). reflexivity.
  - intros N. rewrite (proj2 (proj2 (get_exact b (lo_id o))) N). split; intros H; destruct (Z.leb_spec cap (Z.of_nat (length b))); try lia; reflexivity.
Qed.
Lemma position_first {p : limit_order -> bool} {P : limit_order -> Prop} (HP : forall x, p x = true <-> P x) b l o r :
  first_in P b l o r -> position_of p b = Some (length l) /\ nth_error b (length l) = Some o.
Proof.
  intros (-> & A & B). induction l as [|x l IH]; cbn.
  - rewrite (proj2 (HP o) A). auto.
  - destruct (p x) eqn:E; [exfalso; apply (B x (or_introl eq_refl)), HP, E|]. destruct (IH (fun y Y => B y (or_intror Y))) as [-> ->]. auto.
Qed.
Lemma position_nothing {p : limit_order -> bool} {P : limit_order -> Prop} (HP : forall x, p x = true <-> P x) b : position_of p b = None <-> none_in P b.
Proof.
  rewrite <- (find_nothing HP). induction b as [|x b IH]; cbn; [tauto|]. destruct (p x); [split; discriminate|].
  rewrite <- IH. destruct (position_of p b); cbn; split; congruence.
Qed.
Lemma swap_last l o : swap_remove (l ++ [o]) (length l) = l.
Proof.
  unfold swap_remove. rewrite app_length. cbn [length]. destruct (Nat.eqb_spec (length l) (Nat.pred (length l + 1))) as [_|N]; [apply removelast_last | lia].
Qed.
Lemma swap_middle l o r z : swap_remove ((l ++ o :: r) ++ [z]) (length l) = l ++ z :: r.
Proof.
  unfold swap_remove. rewrite removelast_last. assert (L : Nat.pred (length ((l ++ o :: r) ++ [z])) = length (l ++ o :: r)) by (rewrite app_length; cbn; lia).
  rewrite L. destruct (Nat.eqb_spec (length l) (length (l ++ o :: r))) as [C|_]; [rewrite app_length in C; cbn in C; lia|].
  rewrite nth_error_app2 by reflexivity. rewrite Nat.sub_diag. cbn [nth_error].
  rewrite <- app_assoc, firstn_app, Nat.sub_diag, firstn_all. cbn [firstn]. rewrite app_nil_r. f_equal. f_equal.
  replace (S (length l)) with (length (l ++ [o])) by (rewrite app_length; cbn; lia).
  replace (l ++ o :: r) with ((l ++ [o]) ++ r) by (rewrite <- app_assoc; reflexivity). rewrite skipn_app, Nat.sub_diag, skipn_all. reflexivity.
Qed.
Lemma swap_closes l o r : closed_up l r (swap_remove (l ++ o :: r) (length l)).
Proof.
  destruct r as [|x r0]; [left; split; [reflexivity | apply swap_last]|]. right. destruct (@exists_last _ (x :: r0)) as (r' & z & E); [discriminate|].
  rewrite E. exists r', z. split; [reflexivity|]. rewrite <- (swap_middle l o r' z). f_equal. rewrite <- app_assoc. reflexivity.
Qed.
Lemma remove_any {p : limit_order -> bool} {P : limit_order -> Prop} (HP : forall x, p x = true <-> P x) b :
  (forall l o r, first_in P b l o r -> exists b', remove_by p b = Some (o, b') /\ closed_up l r b') /\ (remove_by p b = None <-> none_in P b).
Proof.
  unfold remove_by. split.
  - intros l o r F. destruct (position_first HP _ _ _ _ F) as [-> ->]. eexists. split; [reflexivity|]. destruct F as (-> & _). apply swap_closes.
  - rewrite <- (position_nothing HP). destruct (position_of p b) as [n|] eqn:E; [|tauto].
    assert (X : exists o, find p b = Some o).
    { destruct (find p b) eqn:G; [eauto|]. apply (find_nothing HP), (position_nothing HP) in G. congruence. }
    destruct X as [o X]. apply (find_first HP) in X as (l & r & F). destruct (position_first HP _ _ _ _ F) as [Y Z]. rewrite E in Y. injection Y as ->. rewrite Z. split; discriminate.
Qed.
Lemma remove_exact b i u :
  (forall l o r, first_in (has_id i) b l o r -> exists b', remove_by_order_id b i = Some (o, b') /\ closed_up l r b') /\
  (remove_by_order_id b i = None <-> none_in (has_id i) b) /\
  (forall l o r, first_in (has_uid u) b l o r -> exists b', remove_by_user_order_id b u = Some (o, b') /\ closed_up l r b') /\
  (remove_by_user_order_id b u = None <-> none_in (has_uid u) b).
Proof.
  destruct (remove_any (id_is i) b) as [A B], (remove_any (uid_is u) b) as [C D]. exact (conj A (conj B (conj C D))).
Qed.

(** ** The orders kept for their margin *)
Lemma update_exact cap b o :
  (lo_rem o <= 0 -> om_update cap b o = Panic POmUpdateRemaining) /\
  (0 < lo_rem o ->
     (forall l old r, first_in (has_id (lo_id o)) b l old r ->
        (old = o -> om_update cap b o = Panic POmUpdateSame) /\
        (old <> o -> lo_rem old <= lo_rem o -> om_update cap b o = Panic POmUpdateNotLess) /\
        (lo_rem o < lo_rem old -> om_update cap b o = Done (l ++ o :: r, Ok tt))) /\
     (none_in (has_id (lo_id o)) b ->
        (cap <= Z.of_nat (length b) -> om_update cap b o = Done (b, Err EMaxNumberOfActiveOrders)) /\
        (Z.of_nat (length b) < cap -> om_update cap b o = Done (b ++ [o], Ok tt)))).
Proof.
  unfold om_update. destruct (insert_exact cap b o) as [I1 I2]. split; [intros H; destruct (Z.ltb_spec 0 (lo_rem o)); [lia | reflexivity]|].
  intros H. destruct (Z.ltb_spec 0 (lo_rem o)); [|lia]. cbn [assert bind]. split.
  - intros l old r F. rewrite (I1 _ _ _ F). split; [|split].
    + intros ->. destruct (limit_order_eq_dec o o); [reflexivity | contradiction].
    + intros N L. destruct (limit_order_eq_dec old o); [contradiction|]. destruct (Z.ltb_spec (lo_rem o) (lo_rem old)); [lia | reflexivity].
    + intros L. destruct (limit_order_eq_dec old o) as [->|]; [lia|]. destruct (Z.ltb_spec (lo_rem o) (lo_rem old)); [reflexivity | lia].
  - intros N. destruct (I2 N) as [J1 J2]. split; intros L; [rewrite (J1 L) | rewrite (J2 L)]; reflexivity.
Qed.
Lemma om_remove_exact b by_ :
  (forall l o r, first_in (named by_) b l o r -> exists b', om_remove b by_ = Done b' /\ closed_up l r b') /\
  (none_in (named by_) b -> om_remove b by_ = Panic POmRemove).
Proof.
  unfold om_remove. destruct by_ as [i|u]; cbn [named].
  - destruct (remove_exact b i 0) as (A & B & _). split.
    + intros l o r F. destruct (A _ _ _ F) as (b' & -> & C). eauto.
    + intros N. rewrite (proj2 B N). reflexivity.
  - destruct (remove_exact b 0 u) as (_ & _ & A & B). split.
    + intros l o r F. destruct (A _ _ _ F) as (b' & -> & C). eauto.
    + intros N. rewrite (proj2 B N). reflexivity.
Qed.

(** ** Sorting and offsetting *)
Lemma insert_perm {A} (key : A -> Z) x l : Permutation (x :: l) (insert_by key x l).
Proof. induction l as [|y l IH]; cbn; [reflexivity|]. destruct (key x <=? key y); [reflexivity|]. rewrite perm_swap. constructor. exact IH. Qed.
Lemma insert_increasing {A} (key : A -> Z) x l : increasing key l -> increasing key (insert_by key x l).
Proof.
  induction l as [|y l IH]; cbn; intros H; [split; [intros ? [] | exact I]|]. destruct H as [H1 H2]. destruct (Z.leb_spec (key x) (key y)).
  - cbn. refine (conj _ (conj H1 H2)). intros z [<-|Z]; [lia|]. specialize (H1 z Z). lia.
  - cbn. split; [|exact (IH H2)]. intros z Z. apply (Permutation_in z (Permutation_sym (insert_perm key x l))) in Z as [<-|Z]; [lia | exact (H1 z Z)].
Qed.
Lemma insert_stable {A} (key : A -> Z) x k l : filter (fun y => key y =? k) (insert_by key x l) = filter (fun y => key y =? k) (x :: l).
Proof.
  induction l as [|y l IH]; [reflexivity|]. cbn [insert_by]. destruct (Z.leb_spec (key x) (key y)); [reflexivity|]. cbn [filter] in *. rewrite IH.
  destruct (Z.eqb_spec (key x) k), (Z.eqb_spec (key y) k); try reflexivity; lia.
Qed.
Lemma sort_exact A (key : A -> Z) l :
  Permutation l (sort_by_key key l) /\ increasing key (sort_by_key key l) /\
  forall k, filter (fun x => key x =? k) (sort_by_key key l) = filter (fun x => key x =? k) l.
Proof.
  induction l as [|x l (IH1 & IH2 & IH3)]; cbn [sort_by_key]; [repeat split; constructor|]. split; [|split].
  - rewrite <- insert_perm. constructor. exact IH1.
  - apply insert_increasing. exact IH2.
  - intros k. rewrite insert_stable. cbn [filter]. rewrite IH3. reflexivity.
Qed.
Lemma total_nonneg l : (forall p q, In (p, q) l -> 0 <= q) -> 0 <= total l.
Proof.
  induction l as [|[p q] l IH]; cbn; intros H; [lia|]. pose proof (H p q (or_introl eq_refl)). assert (0 <= total l) by (apply IH; intros p1 q1 H1; apply (H p1 q1); right; exact H1). lia.
Qed.
Lemma offset_exact l : forall n, (forall p q, In (p, q) l -> 0 <= q) -> forall a p q b, l = a ++ (p, q) :: b ->
  length (offset_orders n l) = length l /\
  nth_error (offset_orders n l) (length a) = Some (p, Z.max 0 (q - Z.max 0 (n - total a))).
Proof.
  assert (L : forall l n, length (offset_orders n l) = length l).
  { clear. induction l as [|[p q] l IH]; intros n; [reflexivity|]. cbn. destruct (0 <? n); [cbn; rewrite IH|]; reflexivity. }
  intros n Q a p q b E. split; [apply L|]. subst l. revert n. induction a as [|[p0 q0] a IH]; intros n; cbn [app length offset_orders nth_error total].
  - assert (0 <= q) by (apply (Q p q); left; reflexivity).
    destruct (Z.ltb_spec 0 n); cbn; f_equal; f_equal; unfold umax; [destruct (Z.ltb_spec 0 (q - n))|]; lia.
  - assert (Q0 : 0 <= q0) by (apply (Q p0 q0); left; reflexivity). assert (Q' : forall p1 q1, In (p1, q1) (a ++ (p, q) :: b) -> 0 <= q1) by (intros p1 q1 H; apply (Q p1 q1); right; exact H).
    destruct (Z.ltb_spec 0 n); cbn [nth_error].
    + rewrite (IH Q'). f_equal. f_equal. unfold umin. destruct (Z.ltb_spec q0 n); [lia|].
      pose proof (total_nonneg a (fun p1 q1 H1 => Q' p1 q1 (in_or_app _ _ _ (or_introl H1)))). lia.
    + pose proof (total_nonneg a (fun p1 q1 H1 => Q' p1 q1 (in_or_app _ _ _ (or_introl H1)))).
      rewrite nth_error_app2, Nat.sub_diag by lia. cbn. f_equal. f_equal. assert (0 <= q) by (apply (Q' p q), in_or_app; right; left; reflexivity). lia.
Qed.
