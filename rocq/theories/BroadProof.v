(** Market data that goes further fills more. *)
From Coq Require Import Permutation.
From Verif Require Import ProofBase BookLemmas StepLemmas FillLemmas OpLemmas Inv Spec SpecBook SpecConfig SpecMarket SpecEntry SpecSplit
  BookProof OrderProof SoundProof LedgerProof MarketProof LiqProof HealthProof Scenario ScenarioPanic TotalProof SplitProof SpecBroad.

Definition amount (ru : raw_update) (o : limit_order) : Z := match touched ru o with Some q => q | None => 0 end.

Lemma crossing_app o a b : crossing_qty o (a ++ b) = crossing_qty o a + crossing_qty o b.
Proof. unfold crossing_qty, sumZ. induction a as [|x a IH]; [reflexivity|]. cbn [app filter]. destruct (crosses o x); cbn [map fold_right]; lia. Qed.
Lemma crossing_perm o a b : Permutation a b -> crossing_qty o a = crossing_qty o b.
Proof.
  unfold crossing_qty, sumZ. induction 1; [reflexivity| | |congruence].
  - cbn [filter]. destruct (crosses o x); cbn [map fold_right]; lia.
  - cbn [filter]. destruct (crosses o x), (crosses o y); cbn [map fold_right]; lia.
Qed.
Lemma crossing_nonneg o l : real_trades l -> 0 <= crossing_qty o l.
Proof.
  unfold crossing_qty, sumZ. induction l as [|x l IH]; intros H; [cbn; lia|]. assert (K : real_trades l) by (intros t T; apply H; right; exact T). specialize (IH K). pose proof (H x (or_introl eq_refl)).
  cbn [filter]. destruct (crosses o x); cbn [map fold_right]; lia.
Qed.
Lemma crossing_in o l t : real_trades l -> In t l -> crosses o t = true -> tr_qty t <= crossing_qty o l.
Proof.
  intros H I C. destruct (List.in_split _ _ I) as (a & b & ->). rewrite crossing_app. change (t :: b) with ([t] ++ b). rewrite crossing_app.
  assert (A : 0 <= crossing_qty o a) by (apply crossing_nonneg; intros x X; apply H, in_or_app; left; exact X).
  assert (B : 0 <= crossing_qty o b) by (apply crossing_nonneg; intros x X; apply H, in_or_app; right; right; exact X).
  unfold crossing_qty, sumZ at 2. cbn [filter]. rewrite C. cbn [map fold_right]. unfold crossing_qty in *. lia.
Qed.
Lemma crossing_zero o l : existsb (crosses o) l = false -> crossing_qty o l = 0.
Proof.
  unfold crossing_qty, sumZ. induction l as [|x l IH]; [reflexivity|]. cbn [existsb filter]. destruct (crosses o x); [discriminate|]. exact IH.
Qed.
Lemma smart_amount l b f o : 0 < lo_rem o -> amount (RSmart l b f) o = if existsb (crosses o) l then Z.min (crossing_qty o l) (lo_rem o) else 0.
Proof. intros _. unfold amount. cbn [touched]. destruct (existsb _ l); reflexivity. Qed.
Lemma in_candle k o t : within k t -> crosses o t = true -> touched (RCandle k) o = Some (lo_rem o).
Proof.
  unfold within, crosses, beyond. cbn [touched]. unfold beyond. intros W C. destruct (lo_side o), (tr_side t); try discriminate.
  - destruct (Z.ltb_spec (cd_low k) (lo_price o)); [reflexivity|lia].
  - destruct (Z.ltb_spec (lo_price o) (cd_high k)); [reflexivity|lia].
Qed.

Lemma broader_amount ru ru' o : broader ru ru' -> 0 < lo_rem o -> (forall q, touched ru' o = Some q -> 0 < q) -> amount ru o <= amount ru' o.
Proof.
  intros B R P. assert (N : 0 <= amount ru' o) by (unfold amount; destruct (touched ru' o) as [q|] eqn:E; [specialize (P q eq_refl); lia | lia]).
  destruct ru as [b|t|k|l b f]; [exact N| | |].
  - destruct ru' as [b'|t'|k'|l' b' f']; [destruct B| | |]; cbn [broader] in B.
    + destruct B as (S & Q & F). unfold amount in *. cbn [touched] in *. destruct (crosses o t) eqn:C; [|exact N].
      assert (C' : crosses o t' = true) by (unfold crosses, beyond in *; rewrite S; destruct (lo_side o), (tr_side t); try discriminate; lia). rewrite C'. lia.
    + unfold amount in *. destruct (crosses o t) eqn:C; [rewrite (in_candle _ _ _ B C)|]; cbn [touched]; rewrite C; [lia|exact N].
    + destruct B as [H I]. rewrite smart_amount in * by exact R. unfold amount. cbn [touched]. destruct (crosses o t) eqn:C; [|exact N].
      pose proof (crossing_in o l' t H I C). assert (X : existsb (crosses o) l' = true) by (apply existsb_exists; exists t; auto). rewrite X. lia.
  - destruct ru' as [b'|t'|k'|l' b' f']; cbn [broader] in B; try destruct B. unfold amount in *. cbn [touched] in *. unfold beyond in *.
    destruct (lo_side o).
    + destruct (Z.ltb_spec (cd_low k) (lo_price o)); [|exact N]. destruct (Z.ltb_spec (cd_low k') (lo_price o)); lia.
    + destruct (Z.ltb_spec (lo_price o) (cd_high k)); [|exact N]. destruct (Z.ltb_spec (lo_price o) (cd_high k')); lia.
  - destruct ru' as [b'|t'|k'|l' b' f']; cbn [broader] in B; try contradiction.
    + rewrite smart_amount by exact R. destruct (existsb (crosses o) l) eqn:E; [|exact N]. apply existsb_exists in E as (t & T & C). unfold amount. rewrite (in_candle _ _ _ (B t T) C). lia.
    + destruct B as [H [r Pm]]. rewrite !smart_amount in * by exact R. destruct (existsb (crosses o) l) eqn:E; [|exact N].
      assert (X : existsb (crosses o) l' = true).
      { apply existsb_exists in E as (t & T & C). apply existsb_exists. exists t. split; [rewrite Pm; apply in_or_app; left; exact T | exact C]. }
      rewrite X. rewrite (crossing_perm o _ _ Pm), crossing_app. assert (0 <= crossing_qty o r); [|lia]. apply crossing_nonneg. intros t T. apply H. rewrite Pm. apply in_or_app. right. exact T.
Qed.

(** What is left of an order. *)
Definition leftover (s : Z) (ru : raw_update) (o x : limit_order) : Prop :=
  match touched ru o with None => x = o | Some q => reported_as s o q (time_of ru) = PartiallyFilled x end.
Lemma left_iff s ru book x : NoDup (ids book) -> In x (apply_updates (reports s ru book) book) <-> exists o, In o book /\ leftover s ru o x.
Proof.
  intros N. unfold apply_updates. rewrite in_flat_map. unfold leftover, apply_update.
  split; intros (o & O & H); exists o; (split; [exact O|]); rewrite (find_report s ru book N o O) in *; (destruct (touched ru o) as [q|]; [destruct (reported_as s o q (time_of ru)) as [y|y]|]); cbn [In] in *;
    try (destruct H as [H|[]]); try contradiction; try congruence; try discriminate; auto.
  - left. congruence.
Qed.
Lemma leftover_shape s ru o x : leftover s ru o x -> lo_id x = lo_id o /\ lo_uid x = lo_uid o /\ lo_side x = lo_side o /\ lo_price x = lo_price o /\ lo_rem x = lo_rem o - amount ru o /\ lo_filled_qty x = lo_filled_qty o + amount ru o.
Proof.
  unfold leftover, amount. destruct (touched ru o) as [q|]; [|intros ->; repeat split; lia]. unfold reported_as. destruct (q =? lo_rem o); [discriminate|]. intros H. injection H as <-. cbn. repeat split.
Qed.
Lemma leftover_exists s ru o : 0 < lo_rem o -> amount ru o < lo_rem o -> exists x, leftover s ru o x.
Proof.
  unfold leftover, amount. destruct (touched ru o) as [q|]; [|eauto]. intros _ H. unfold reported_as. destruct (Z.eqb_spec q (lo_rem o)); [lia|]. eauto.
Qed.

Lemma broad_left c e ru ru' f f' l l' : valid_config c -> reachable c e -> broader ru ru' ->
  step c e (OpUpdate ru) = Done (f, Ok (OutUpdates l)) -> step c e (OpUpdate ru') = Done (f', Ok (OutUpdates l')) ->
  forall x', In x' (ex_active f') -> exists x, In x (ex_active f) /\ lo_id x = lo_id x' /\ lo_uid x = lo_uid x' /\ lo_side x = lo_side x' /\ lo_price x = lo_price x' /\
    lo_rem x' <= lo_rem x /\ lo_filled_qty x <= lo_filled_qty x'.
Proof.
  intros V R B S S' x' X'. pose proof (reachable_inv _ _ (vc_max _ V) R) as I.
  destruct (update_exact c e ru f l V R S) as (-> & P & _ & Q). destruct (update_exact c e ru' f' l' V R S') as (-> & P' & _ & Q').
  rewrite P' in X'. apply (left_iff _ _ _ _ (inv_nodup _ _ I)) in X' as (o & O & X'). pose proof (rem_pos c e o V R O) as Rm.
  pose proof (broader_amount ru ru' o B Rm (fun q H => proj1 (Q' o q O H))) as A.
  assert (Lt : amount ru' o < lo_rem o).
  { unfold leftover in X'. unfold amount. destruct (touched ru' o) as [q|] eqn:E; [|exact Rm]. pose proof (Q' o q O E). unfold reported_as in X'. destruct (Z.eqb_spec q (lo_rem o)); [discriminate|lia]. }
  destruct (leftover_exists (c_scale c) ru o Rm) as [x X]; [lia|]. exists x. split.
  - rewrite P. apply (left_iff _ _ _ _ (inv_nodup _ _ I)). eauto.
  - apply leftover_shape in X as (X1 & X2 & X3 & X4 & X5 & X6), X' as (Y1 & Y2 & Y3 & Y4 & Y5 & Y6). repeat split; try congruence; lia.
Qed.

Lemma net_bids c ru book : (forall o, In o book -> lo_side o = Buy) -> net (caused c ru book) = sumZ (map (amount ru) book).
Proof.
  unfold caused, net, amount, sumZ. induction book as [|o book IH]; intros H; [reflexivity|]. cbn [flat_map map fold_right]. rewrite <- IH by (intros x X; apply H; right; exact X).
  destruct (touched ru o) as [q|]; cbn [app fold_right]; [|lia]. unfold signed_qty at 1. cbn [f_side f_qty]. rewrite (H o (or_introl eq_refl)). lia.
Qed.
Lemma broad_bids c e ru ru' f f' l l' : valid_config c -> reachable c e -> broader ru ru' -> (forall o, In o (ex_active e) -> lo_side o = Buy) ->
  step c e (OpUpdate ru) = Done (f, Ok (OutUpdates l)) -> step c e (OpUpdate ru') = Done (f', Ok (OutUpdates l')) ->
  position_quantity (ex_pos e) <= position_quantity (ex_pos f) <= position_quantity (ex_pos f').
Proof.
  intros V R B S K K'. destruct (update_exact c e ru f l V R K) as (_ & _ & P & Q). destruct (update_exact c e ru' f' l' V R K') as (_ & _ & P' & Q').
  apply (f_equal l_qty) in P, P'. rewrite fold_qty in P, P'. rewrite net_bids in P, P' by exact S. cbn [statement_of l_qty] in P, P'. rewrite P, P'.
  assert (H : 0 <= sumZ (map (amount ru) (ex_active e)) <= sumZ (map (amount ru') (ex_active e))); [|lia].
  assert (G : forall o, In o (ex_active e) -> 0 <= amount ru o <= amount ru' o).
  { intros o O. split; [|exact (broader_amount ru ru' o B (rem_pos c e o V R O) (fun q H => proj1 (Q' o q O H)))]. unfold amount. destruct (touched ru o) as [q|] eqn:E; [|lia]. pose proof (Q o q O E). lia. }
  revert G. generalize (ex_active e). unfold sumZ. intros b. induction b as [|o b IH]; intros G; cbn [map fold_right]; [lia|]. pose proof (G o (or_introl eq_refl)). specialize (IH (fun x X => G x (or_intror X))). lia.
Qed.

Lemma net_offers c ru book : (forall o, In o book -> lo_side o = Sell) -> net (caused c ru book) = - sumZ (map (amount ru) book).
Proof.
  unfold caused, net, amount, sumZ. induction book as [|o book IH]; intros H; [reflexivity|]. cbn [flat_map map fold_right]. rewrite Z.opp_add_distr, <- IH by (intros x X; apply H; right; exact X).
  destruct (touched ru o) as [q|]; cbn [app fold_right]; [|lia]. unfold signed_qty at 1. cbn [f_side f_qty]. rewrite (H o (or_introl eq_refl)). lia.
Qed.
Lemma broad_offers c e ru ru' f f' l l' : valid_config c -> reachable c e -> broader ru ru' -> (forall o, In o (ex_active e) -> lo_side o = Sell) ->
  step c e (OpUpdate ru) = Done (f, Ok (OutUpdates l)) -> step c e (OpUpdate ru') = Done (f', Ok (OutUpdates l')) ->
  position_quantity (ex_pos f') <= position_quantity (ex_pos f) <= position_quantity (ex_pos e).
Proof.
  intros V R B S K K'. destruct (update_exact c e ru f l V R K) as (_ & _ & P & Q). destruct (update_exact c e ru' f' l' V R K') as (_ & _ & P' & Q').
  apply (f_equal l_qty) in P, P'. rewrite fold_qty in P, P'. rewrite net_offers in P, P' by exact S. cbn [statement_of l_qty] in P, P'. rewrite P, P'.
  assert (H : 0 <= sumZ (map (amount ru) (ex_active e)) <= sumZ (map (amount ru') (ex_active e))); [|lia].
  assert (G : forall o, In o (ex_active e) -> 0 <= amount ru o <= amount ru' o).
  { intros o O. split; [|exact (broader_amount ru ru' o B (rem_pos c e o V R O) (fun q H => proj1 (Q' o q O H)))]. unfold amount. destruct (touched ru o) as [q|] eqn:E; [|lia]. pose proof (Q o q O E). lia. }
  revert G. generalize (ex_active e). unfold sumZ. intros b. induction b as [|o b IH]; intros G; cbn [map fold_right]; [lia|]. pose proof (G o (or_introl eq_refl)). specialize (IH (fun x X => G x (or_intror X))). lia.
Qed.
