(** Lemmas on the order vector: find, replace, swap_remove. *)
From Coq Require Import Permutation.
From Verif Require Import ProofBase.

Definition ids (b : list limit_order) : list Z := map lo_id b.

Lemma position_of_find p b :
  match position_of p b with
  | Some n => nth_error b n = find p b /\ (exists o, find p b = Some o)
  | None => find p b = None
  end.
Proof.
  induction b as [|o b IH]; cbn; [reflexivity|].
  destruct (p o); cbn; [eauto|].
  destruct (position_of p b) as [n|]; cbn; exact IH.
Qed.

Lemma remove_by_find p b o b' :
  remove_by p b = Some (o, b') -> find p b = Some o.
Proof.
  unfold remove_by. pose proof (position_of_find p b) as H.
  destruct (position_of p b) as [n|]; [|discriminate].
  destruct H as [H [x Hx]]. destruct (nth_error b n) eqn:En; [|discriminate].
  intros Heq; inv. congruence.
Qed.

Lemma remove_by_none p b : remove_by p b = None <-> find p b = None.
Proof.
  unfold remove_by. pose proof (position_of_find p b) as H.
  destruct (position_of p b) as [n|].
  - destruct H as [H [x Hx]]. rewrite H, Hx. split; discriminate.
  - tauto.
Qed.

Lemma removelast_length {A} (l : list A) : length (removelast l) = Nat.pred (length l).
Proof.
  induction l as [|x l IH]; [reflexivity|]. destruct l; [reflexivity|].
  change (S (length (removelast (a :: l))) = S (length l)). rewrite IH; reflexivity.
Qed.

Lemma removelast_split {A} (l : list A) x :
  nth_error l (Nat.pred (length l)) = Some x -> l = removelast l ++ [x].
Proof.
  intros H. destruct l as [|a l]; [discriminate|].
  assert (Hn : a :: l <> []) by discriminate.
  rewrite (app_removelast_last a Hn) at 1. f_equal. f_equal.
  set (l0 := a :: l) in *. set (k := Nat.pred (length l0)) in *.
  rewrite (app_removelast_last a Hn) in H.
  rewrite nth_error_app2 in H by (rewrite removelast_length; lia).
  rewrite removelast_length in H. replace (k - Nat.pred (length l0))%nat with O in H by lia.
  cbn [nth_error] in H. congruence.
Qed.

Lemma swap_remove_perm b n o :
  nth_error b n = Some o -> Permutation b (o :: swap_remove b n).
Proof.
  intros Hn. unfold swap_remove.
  assert (Hlt : (n < length b)%nat) by (apply nth_error_Some; congruence).
  destruct (nth_error b (Nat.pred (length b))) as [l|] eqn:El.
  2:{ apply nth_error_None in El; lia. }
  pose proof (removelast_split _ _ El) as Hb.
  destruct (Nat.eqb_spec n (Nat.pred (length b))) as [Heq|Hne].
  - subst n. assert (l = o) by congruence. subst l.
    rewrite Hb at 1. rewrite Permutation_app_comm. reflexivity.
  - assert (Hn' : nth_error (removelast b) n = Some o).
    { rewrite Hb in Hn. rewrite nth_error_app1 in Hn; [exact Hn|].
      rewrite removelast_length; lia. }
    apply nth_error_split in Hn' as [l1 [l2 [Hs Hl1]]].
    rewrite Hs in *. rewrite Hb.
    assert (Hf : firstn n ((l1 ++ o :: l2) ++ [l]) = l1).
    { rewrite <- app_assoc, firstn_app, Hl1, Nat.sub_diag. cbn. rewrite app_nil_r.
      rewrite <- Hl1. apply firstn_all. }
    rewrite Hf.
    assert (Hk : skipn (S n) (l1 ++ o :: l2) = l2).
    { replace (l1 ++ o :: l2) with ((l1 ++ [o]) ++ l2) by (rewrite <- app_assoc; reflexivity).
      rewrite skipn_app. rewrite skipn_all2 by (rewrite app_length; cbn; lia).
      rewrite app_length; cbn [length]. replace (S n - (length l1 + 1))%nat with O by lia. reflexivity. }
    rewrite Hk. etransitivity; [apply Permutation_app_comm|]. cbn [app].
    rewrite <- !Permutation_middle. apply perm_swap.
Qed.

Lemma remove_by_spec p b o b' :
  remove_by p b = Some (o, b') -> In o b /\ p o = true /\ Permutation b (o :: b').
Proof.
  intros H. pose proof (remove_by_find _ _ _ _ H) as Hf.
  apply find_some in Hf as Hf'. destruct Hf' as [Hin Hp]. repeat split; auto.
  unfold remove_by in H. destruct (position_of p b) as [n|]; [|discriminate].
  destruct (nth_error b n) eqn:En; inv. eauto using swap_remove_perm.
Qed.

(** swap_remove commutes with maps *)
Lemma removelast_map {A B} (g : A -> B) l : removelast (map g l) = map g (removelast l).
Proof.
  induction l as [|x l IH]; [reflexivity|]. destruct l; [reflexivity|].
  change (g x :: removelast (map g (a :: l)) = g x :: map g (removelast (a :: l))).
  f_equal; exact IH.
Qed.

Lemma swap_remove_map g b n : swap_remove (map g b) n = map g (swap_remove b n).
Proof.
  unfold swap_remove. rewrite map_length.
  destruct (Nat.eqb n (Nat.pred (length b))); [apply removelast_map|].
  rewrite nth_error_map. destruct (nth_error b (Nat.pred (length b))); cbn [option_map]; [|reflexivity].
  rewrite map_app, removelast_map, firstn_map, skipn_map. reflexivity.
Qed.

Lemma position_of_map p g b : (forall x, p (g x) = p x) -> position_of p (map g b) = position_of p b.
Proof.
  intros H. induction b as [|o b IH]; cbn; [reflexivity|]. rewrite H, IH. reflexivity.
Qed.

Lemma remove_by_map p g b :
  (forall x, p (g x) = p x) ->
  remove_by p (map g b) = option_map (fun r => (g (fst r), map g (snd r))) (remove_by p b).
Proof.
  intros H. unfold remove_by. rewrite position_of_map by exact H.
  destruct (position_of p b) as [n|]; [|reflexivity].
  rewrite nth_error_map. destruct (nth_error b n); cbn; [|reflexivity].
  rewrite swap_remove_map. reflexivity.
Qed.

(** Replacing by id as a map *)
Definition upd (i : Z) (o' x : limit_order) : limit_order := if lo_id x =? i then o' else x.

Lemma upd_id i o' x : lo_id o' = i -> lo_id (upd i o' x) = lo_id x.
Proof. unfold upd; intros; destruct (Z.eqb_spec (lo_id x) i); congruence. Qed.

Lemma upd_notin i o' b : ~ In i (ids b) -> map (upd i o') b = b.
Proof.
  induction b as [|x b IH]; cbn; intros H; [reflexivity|].
  unfold upd at 1. destruct (Z.eqb_spec (lo_id x) i); [tauto|].
  f_equal. apply IH; tauto.
Qed.

Lemma replace_by_id_map b i o' :
  NoDup (ids b) -> replace_by_id b i o' = map (upd i o') b.
Proof.
  induction b as [|x b IH]; cbn; intros H; [reflexivity|].
  inversion H as [|? ? Hx Hb]; subst. unfold upd at 1.
  destruct (Z.eqb_spec (lo_id x) i) as [e|].
  - f_equal. rewrite upd_notin; [reflexivity|]. rewrite <- e; exact Hx.
  - f_equal. apply IH; exact Hb.
Qed.

Lemma ids_upd i o' b : lo_id o' = i -> ids (map (upd i o') b) = ids b.
Proof.
  intros H. unfold ids. rewrite map_map. apply map_ext. intros; apply upd_id; exact H.
Qed.

Lemma get_by_id_in b i o : get_by_id b i = Some o -> In o b /\ lo_id o = i.
Proof. intros H; apply find_some in H as [H1 H2]. split; [exact H1 | lia]. Qed.

Lemma get_by_id_none b i : get_by_id b i = None <-> ~ In i (ids b).
Proof.
  unfold get_by_id, ids. split.
  - intros H Hin. apply in_map_iff in Hin as [x [Hx Hin]].
    pose proof (find_none _ _ H x Hin) as Hn. cbn in Hn. lia.
  - intros H. destruct (find _ b) eqn:E; [|reflexivity].
    apply find_some in E as [E1 E2]. exfalso; apply H, in_map_iff. exists l; split; [lia|exact E1].
Qed.

Lemma get_by_id_nodup b o : NoDup (ids b) -> In o b -> get_by_id b (lo_id o) = Some o.
Proof.
  induction b as [|x b IH]; cbn; intros Hn Hin; [contradiction|].
  inversion Hn as [|? ? Hx Hb]; subst.
  destruct (Z.eqb_spec (lo_id x) (lo_id o)) as [e|ne].
  - destruct Hin as [->|Hin]; [reflexivity|]. exfalso; apply Hx. rewrite e. apply in_map; exact Hin.
  - destruct Hin as [->|Hin]; [congruence|]. apply IH; assumption.
Qed.

Lemma nodup_ids_inj b o1 o2 : NoDup (ids b) -> In o1 b -> In o2 b -> lo_id o1 = lo_id o2 -> o1 = o2.
Proof.
  intros Hn H1 H2 He. apply (get_by_id_nodup _ _ Hn) in H1. apply (get_by_id_nodup _ _ Hn) in H2. congruence.
Qed.

Lemma remove_id_spec b i o b' :
  remove_by_order_id b i = Some (o, b') ->
  In o b /\ lo_id o = i /\ Permutation b (o :: b') /\ get_by_id b i = Some o.
Proof.
  intros H. pose proof (remove_by_find _ _ _ _ H) as Hf.
  apply remove_by_spec in H as (H1 & H2 & H3). repeat split; auto. lia.
Qed.

Lemma remove_id_none b i : remove_by_order_id b i = None <-> ~ In i (ids b).
Proof. unfold remove_by_order_id. rewrite remove_by_none. apply get_by_id_none. Qed.

Lemma remove_id_ids b i o b' :
  NoDup (ids b) -> remove_by_order_id b i = Some (o, b') ->
  NoDup (ids b') /\ ~ In i (ids b') /\ (forall x, In x b' <-> In x b /\ lo_id x <> i).
Proof.
  intros Hn H. apply remove_id_spec in H as (Hin & Hid & Hp & _).
  assert (Hp' : Permutation (ids b) (i :: ids b')).
  { unfold ids. rewrite Hp. cbn. rewrite Hid. reflexivity. }
  assert (Hn' : NoDup (i :: ids b')) by (eapply Permutation_NoDup; eassumption).
  inversion Hn' as [|? ? Hni Hnb]; subst. repeat split; auto.
  - rewrite Hp; right; assumption.
  - intros He. apply Hni. rewrite <- He. apply in_map; assumption.
  - intros [Hx Hne]. rewrite Hp in Hx. destruct Hx as [->|Hx]; [congruence|exact Hx].
Qed.

Lemma remove_id_upd_other b i o' j :
  lo_id o' = i ->
  remove_by_order_id (map (upd i o') b) j
  = option_map (fun r => (upd i o' (fst r), map (upd i o') (snd r))) (remove_by_order_id b j).
Proof.
  intros H. apply remove_by_map. intros x. rewrite upd_id by exact H. reflexivity.
Qed.

Lemma remove_id_upd_same b i o' o b' :
  NoDup (ids b) -> lo_id o' = i ->
  remove_by_order_id b i = Some (o, b') ->
  remove_by_order_id (map (upd i o') b) i = Some (o', b').
Proof.
  intros Hn Hi H. rewrite remove_id_upd_other by exact Hi. rewrite H. cbn.
  pose proof (remove_id_ids _ _ _ _ Hn H) as (_ & Hni & _).
  apply remove_id_spec in H as (_ & Hid & _). rewrite upd_notin by exact Hni.
  unfold upd. rewrite Hid, Z.eqb_refl. reflexivity.
Qed.

(** Appending and removing the last element *)
Lemma position_of_app p b o :
  (forall x, In x b -> p x = false) -> p o = true -> position_of p (b ++ [o]) = Some (length b).
Proof.
  induction b as [|x b IH]; cbn; intros Hb Ho; [rewrite Ho; reflexivity|].
  rewrite Hb by tauto. rewrite IH; auto.
Qed.

Lemma swap_remove_last b o : swap_remove (b ++ [o]) (length b) = b.
Proof.
  unfold swap_remove. rewrite app_length; cbn [length].
  replace (Nat.pred (length b + 1)) with (length b) by lia.
  rewrite Nat.eqb_refl. apply removelast_last.
Qed.

Lemma remove_id_app b o :
  ~ In (lo_id o) (ids b) -> remove_by_order_id (b ++ [o]) (lo_id o) = Some (o, b).
Proof.
  intros H. unfold remove_by_order_id, remove_by.
  rewrite position_of_app.
  - rewrite nth_error_app2, Nat.sub_diag by lia. cbn. rewrite swap_remove_last. reflexivity.
  - intros x Hx. apply Z.eqb_neq. intros He. apply H. rewrite <- He. apply in_map; exact Hx.
  - apply Z.eqb_refl.
Qed.

Lemma ids_app b o : ids (b ++ [o]) = ids b ++ [lo_id o].
Proof. unfold ids; rewrite map_app; reflexivity. Qed.

Lemma NoDup_app_single {A} (l : list A) x : NoDup l -> ~ In x l -> NoDup (l ++ [x]).
Proof.
  intros Hn Hx. apply (Permutation_NoDup (l := x :: l)); [|constructor; assumption].
  change (x :: l) with ([x] ++ l). apply Permutation_app_comm.
Qed.

Lemma orders_eqb_eq a b : orders_eqb a b = true <-> a = b.
Proof. unfold orders_eqb; destruct (orders_eq_dec a b); split; congruence. Qed.

Lemma orders_eqb_refl a : orders_eqb a a = true.
Proof. apply orders_eqb_eq; reflexivity. Qed.

(** Inserting *)
Lemma book_insert_new cap b o :
  ~ In (lo_id o) (ids b) ->
  book_insert cap b o =
    if cap <=? Z.of_nat (length b) then (b, Err EMaxNumberOfActiveOrders) else (b ++ [o], Ok None).
Proof. intros H. unfold book_insert. apply get_by_id_none in H. rewrite H. reflexivity. Qed.

Lemma book_insert_old cap b o old :
  NoDup (ids b) -> get_by_id b (lo_id o) = Some old ->
  book_insert cap b o = (map (upd (lo_id o) o) b, Ok (Some old)).
Proof.
  intros Hn H. unfold book_insert. rewrite H. rewrite replace_by_id_map by exact Hn. reflexivity.
Qed.

(** Removing several ids *)
Lemma remove_executed_app l1 l2 b :
  remove_executed (l1 ++ l2) b = (b1 <- remove_executed l1 b ;; remove_executed l2 b1).
Proof.
  revert b; induction l1 as [|i l1 IH]; intros b; cbn; [reflexivity|].
  destruct (remove_by_order_id b i) as [[o b']|]; [apply IH | reflexivity].
Qed.

Lemma remove_executed_upd l b i o' b1 :
  lo_id o' = i -> remove_executed l b = Done b1 ->
  remove_executed l (map (upd i o') b) = Done (map (upd i o') b1).
Proof.
  intros Hi. revert b; induction l as [|j l IH]; intros b; cbn.
  - intros H; inv; reflexivity.
  - rewrite remove_id_upd_other by exact Hi.
    destruct (remove_by_order_id b j) as [[o b']|]; cbn; [apply IH | discriminate].
Qed.

Lemma remove_executed_spec l b b1 :
  NoDup (ids b) -> remove_executed l b = Done b1 ->
  NoDup (ids b1) /\ (forall x, In x b1 <-> In x b /\ ~ In (lo_id x) l).
Proof.
  revert b; induction l as [|j l IH]; intros b Hn; cbn.
  - intros H; inv. split; [exact Hn|]. tauto.
  - destruct (remove_by_order_id b j) as [[o b']|] eqn:E; [|discriminate].
    intros H. apply (remove_id_ids _ _ _ _ Hn) in E as (Hn' & Hni & Hx).
    destruct (IH _ Hn' H) as [Hn1 Hx1]. split; [exact Hn1|].
    intros x. rewrite Hx1, Hx. intuition.
Qed.

Lemma remove_executed_length l b b1 :
  remove_executed l b = Done b1 -> (length b1 + length l = length b)%nat.
Proof.
  revert b; induction l as [|j l IH]; intros b; cbn.
  - intros H; inv; lia.
  - destruct (remove_by_order_id b j) as [[o b']|] eqn:E; [|discriminate].
    intros H. apply remove_id_spec in E as (_ & _ & Hp & _).
    apply Permutation_length in Hp. cbn in Hp. apply IH in H. lia.
Qed.

Lemma remove_executed_perm l b b1 :
  NoDup (ids b) -> NoDup l -> remove_executed l b = Done b1 ->
  Permutation b1 (filter (fun x => if in_dec Z.eq_dec (lo_id x) l then false else true) b).
Proof.
  intros Hn Hl H. destruct (remove_executed_spec _ _ _ Hn H) as [Hn1 Hx].
  apply NoDup_Permutation.
  - apply (NoDup_map_inv lo_id); exact Hn1.
  - apply NoDup_filter. apply (NoDup_map_inv lo_id); exact Hn.
  - intros x. rewrite Hx, filter_In. destruct (in_dec Z.eq_dec (lo_id x) l); intuition congruence.
Qed.
