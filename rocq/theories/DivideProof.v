(** A limit order in parts. *)
From Coq Require Import Permutation.
From Verif Require Import ProofBase BookLemmas Inv Types Accounting Filters Position OrderBook OrderMargin MarketUpdate Exchange Spec SpecConfig SpecRules SpecMarket SpecFlow SpecMargin SpecPanic
  SpecEntry SpecMachine SpecCrash MachineProof CrashProof OrderProof HealthProof SplitProof SpecSplit SpecBatch BatchProof SpecSlice SliceProof SlicePlay SpecDivide.

(** ** The ranking *)
Section Rank.
Variables (sd : side) (p : Z).
Let part (q : Z) : Z * Z := (p, q).
Definition swapped (l : list Z) (w x : list (Z * Z)) : Prop := exists u v, w = u ++ part (sumZ l) :: v /\ x = u ++ map part l ++ v.
Lemma place_swapped l y w x : l <> [] -> swapped l w x -> swapped l (place sd y w) (place sd y x).
Proof.
  intros N (u & v & -> & ->). induction u as [|z u IH]; cbn [app].
  - destruct l as [|a l]; [contradiction|]. cbn [map app place].
    assert (E : forall q, better sd (part q) y = better sd (part a) y) by (intros q; unfold better, part; destruct sd; reflexivity).
    rewrite (E (sumZ (a :: l))). destruct (better sd (part a) y) eqn:B.
    + exists [], (place sd y v). cbn [app map]. split; [reflexivity|]. f_equal. clear N. 
      induction l as [|b l IHl]; cbn [map app place]; [reflexivity|]. rewrite (E b), ?B. f_equal. exact IHl.
    + exists [y], v. split; reflexivity.
  - cbn [place]. destruct (better sd z y).
    + destruct IH as (u' & v' & -> & ->). exists (z :: u'), v'. split; reflexivity.
    + exists (y :: z :: u), v. split; reflexivity.
Qed.
Lemma rank_parts l : fold_right (place sd) [] (map part l) = map part l.
Proof.
  induction l as [|a l IH]; [reflexivity|]. cbn [map fold_right]. rewrite IH. destruct l as [|b l]; [reflexivity|]. cbn [map place].
  assert (B : better sd (part b) (part a) = false) by (unfold better, part; destruct sd; apply Z.ltb_irrefl). rewrite B. reflexivity.
Qed.
Lemma rank_swapped l a : l <> [] -> swapped l (fold_right (place sd) [] (a ++ [part (sumZ l)])) (fold_right (place sd) [] (a ++ map part l)).
Proof.
  intros N. rewrite !fold_right_app, rank_parts. cbn [fold_right place]. induction a as [|y a IH]; cbn [fold_right].
  - exists [], []. rewrite app_nil_r. split; reflexivity.
  - apply place_swapped; assumption.
Qed.
End Rank.

Section Cost.
Variables (k : kind) (s : Z).
Hypothesis Hs : 0 < s.
Lemma cost_app a b : cost k s (a ++ b) = cost k s a + cost k s b.
Proof. unfold cost. rewrite map_app. induction (map _ a) as [|x r IH]; cbn in *; [reflexivity|]. unfold sumZ in *. lia. Qed.
Definition used (l : list (Z * Z)) (h : Z) : Z := Z.min h (sumZ (map snd l)).
Lemma sum_snd_nonneg (l : list (Z * Z)) : (forall x, In x l -> 0 <= snd x) -> 0 <= sumZ (map snd l).
Proof. induction l as [|a l IH]; intros H; cbn; [lia|]. pose proof (H a (or_introl eq_refl)). specialize (IH (fun x I => H x (or_intror I))). unfold sumZ in *. lia. Qed.
Lemma hedge_app (a b : list (Z * Z)) : forall h, 0 <= h -> (forall x : Z * Z, In x a -> 0 <= snd x) -> hedge h (a ++ b) = hedge h a ++ hedge (h - used a h) b.
Proof.
  induction a as [|[p q] a IH]; intros h Hh H; cbn [app hedge].
  - unfold used; cbn. f_equal. lia.
  - pose proof (H _ (or_introl eq_refl)) as Hq. cbn in Hq. f_equal. rewrite IH; [|lia|intros x I; apply H; right; exact I]. f_equal. f_equal.
    pose proof (sum_snd_nonneg a (fun x I => H x (or_intror I))). unfold used. cbn [map snd sumZ fold_right]. fold (sumZ (map snd a)). lia.
Qed.
(** What is left of the parts. *)
Lemma parts_left (p : Z) (l : list Z) : 0 <= p -> (forall q, In q l -> 0 < q) -> l <> [] -> forall h, 0 <= h ->
  cost k s (hedge h (map (fun q => (p, q)) l)) <= value k s (sumZ l - Z.min (sumZ l) h) p <= cost k s (hedge h (map (fun q => (p, q)) l)) + extra l.
Proof.
  intros Hp. induction l as [|a l IH]; intros Q N h Hh; [contradiction|]. pose proof (Q a (or_introl eq_refl)) as Ha.
  assert (K : forall q, In q l -> 0 < q) by (intros q I; apply Q; right; exact I). destruct l as [|b l].
  - cbn [map hedge]. unfold cost, extra; cbn [map fst snd sumZ fold_right length]. rewrite !Z.add_0_r. cbn. lia.
  - cbn [map hedge]. rewrite (MarginProof.cost_cons k s). cbn [fst snd]. specialize (IH K ltac:(discriminate) (h - Z.min a h) ltac:(lia)). cbn [map hedge] in IH.
    pose proof (sum_pos _ K ltac:(discriminate)) as S. change (sumZ (a :: b :: l)) with (a + sumZ (b :: l)).
    pose proof (value_add k s (a - Z.min a h) (sumZ (b :: l) - Z.min (sumZ (b :: l)) (h - Z.min a h)) p ltac:(lia) ltac:(lia) ltac:(lia) Hp) as V.
    replace (a - Z.min a h + (sumZ (b :: l) - Z.min (sumZ (b :: l)) (h - Z.min a h))) with (a + sumZ (b :: l) - Z.min (a + sumZ (b :: l)) h) in V by lia.
    replace (extra (a :: b :: l)) with (extra (b :: l) + 1) by (unfold extra; cbn [length]; lia). lia.
Qed.
Lemma snd_parts (p : Z) (l : list Z) : sumZ (map snd (map (fun q : Z => (p, q) : Z * Z) l)) = sumZ l.
Proof. rewrite map_map. cbn [snd]. rewrite map_id. reflexivity. Qed.
Lemma swapped_cost p l w x h : swapped p l w x -> 0 <= p -> (forall q, In q l -> 0 < q) -> l <> [] -> 0 <= h -> (forall y : Z * Z, In y w -> 0 <= snd y) ->
  cost k s (hedge h x) <= cost k s (hedge h w) <= cost k s (hedge h x) + extra l.
Proof.
  intros (u & v & -> & ->) Hp Q N Hh W. assert (Wu : forall y, In y u -> 0 <= snd y) by (intros y I; apply W, in_or_app; left; exact I).
  rewrite !(hedge_app u) by assumption. rewrite !cost_app. set (h' := h - used u h). assert (0 <= h').
  { unfold h', used. lia. }
  rewrite hedge_app; [|assumption|intros y I; apply in_map_iff in I as (q & <- & I); cbn; specialize (Q q I); lia]. cbn [hedge]. rewrite cost_app, (MarginProof.cost_cons k s). cbn [fst snd].
  unfold used. rewrite snd_parts. pose proof (parts_left p l Hp Q N h' ltac:(lia)) as L. rewrite (Z.min_comm h'). lia.
Qed.
End Cost.

Lemma quot_step x y k s r : 0 < s -> 0 <= r <= s -> 0 <= x -> x <= y <= x + k -> Z.quot (x * r) s <= Z.quot (y * r) s <= Z.quot (x * r) s + k.
Proof.
  intros Hs Hr Hx Hy. split; [apply Z.quot_le_mono; nia|]. transitivity (Z.quot (x * r + k * s) s); [apply Z.quot_le_mono; nia|].
  rewrite !Z.quot_div_nonneg by nia. rewrite Z.div_add by lia. lia.
Qed.
Lemma max_step a b a' b' n : 0 <= n -> a <= a' <= a + n -> b <= b' <= b + n -> Z.max a b <= Z.max a' b' <= Z.max a b + n.
Proof. lia. Qed.

(** ** The margin *)
Lemma pairs_tickets sd sd' p uid l ts i : pairs sd' (entered ts i (tickets sd p uid l)) = if side_eq_dec sd sd' then map (fun q => (p, q)) l else [].
Proof.
  rewrite pairs_entered. induction l as [|a l IH]; cbn [tickets map flat_map t_side t_price t_qty]; [destruct (side_eq_dec sd sd'); reflexivity|].
  fold (tickets sd p uid l). rewrite IH. destruct (side_eq_dec sd sd'); reflexivity.
Qed.
Lemma ranking_in sd b y : good_book b -> In y (ranking sd b) -> 0 < fst y /\ 0 < snd y.
Proof.
  intros G I. unfold ranking in I. assert (J : In y (pairs sd b)).
  { revert I. generalize (pairs sd b) as l. clear. assert (P : forall z l, In y (place sd z l) -> y = z \/ In y l).
    { induction l as [|x l IH]; cbn [place]; [intros [->|[]]; auto|]. destruct (better sd x z); intros [->|I]; cbn; auto. destruct (IH I); auto. }
    induction l as [|x l IH]; cbn [fold_right]; [auto|]. intros I. apply P in I as [->|I]; [left; reflexivity | right; auto]. }
  apply MarginProof.pairs_in in J as (o & I' & _ & ->). cbn. destruct (G o I'). auto.
Qed.
Lemma need_parts c e sd p uid l n : valid_config c -> reachable c e -> 0 < p -> (forall q, In q l -> 0 < q) -> l <> [] ->
  need c (book_with e (tickets sd p uid l)) n <= need c (book_with e (tickets sd p uid [sumZ l])) n <= need c (book_with e (tickets sd p uid l)) n + extra l.
Proof.
  intros V R Hp Q N. pose proof (good_of_inv _ _ (reachable_inv c e (vc_max _ V) R)) as G0. pose proof (sum_pos l Q N) as S.
  assert (X : 0 <= extra l) by (destruct l; [contradiction|]; unfold extra; cbn [length]; lia).
  assert (G : good_book (book_with e (tickets sd p uid [sumZ l]))).
  { apply good_app; [exact G0|]. apply entered_good. intros t [<-|[]]. cbn. lia. }
  assert (Gp : good_book (book_with e (tickets sd p uid l))).
  { apply good_app; [exact G0|]. apply entered_good. intros t I. apply in_map_iff in I as (q & <- & I). cbn. split; [exact Hp | apply Q, I]. }
  assert (K : forall sd' h, 0 <= h -> cost (c_kind c) (c_scale c) (hedge h (ranking sd' (book_with e (tickets sd p uid l)))) <=
    cost (c_kind c) (c_scale c) (hedge h (ranking sd' (book_with e (tickets sd p uid [sumZ l])))) <=
    cost (c_kind c) (c_scale c) (hedge h (ranking sd' (book_with e (tickets sd p uid l)))) + extra l).
  { intros sd' h Hh. destruct (side_eq_dec sd sd') as [<-|D].
    - apply (swapped_cost _ _ (vc_scale _ V) p l); auto; [|lia|intros y I; apply (ranking_in sd _ y G) in I; lia].
      unfold ranking, book_with. rewrite !MarginProof.pairs_app, !pairs_tickets. destruct (side_eq_dec sd sd); [|contradiction]. apply rank_swapped, N.
    - unfold ranking, book_with. rewrite !MarginProof.pairs_app, !pairs_tickets. destruct (side_eq_dec sd sd'); [contradiction|]. lia. }
  assert (C : forall sd' h, 0 <= h -> 0 <= cost (c_kind c) (c_scale c) (hedge h (ranking sd' (book_with e (tickets sd p uid l))))).
  { intros sd' h Hh. apply MarginProof.cost_nonneg; [apply (vc_scale _ V)|]. intros y I. revert I. assert (L : forall z, In z (ranking sd' (book_with e (tickets sd p uid l))) -> 0 < fst z /\ 0 < snd z) by (intros z; apply ranking_in, Gp).
    revert h Hh L. generalize (ranking sd' (book_with e (tickets sd p uid l))) as w. clear. induction w as [|[pz qz] w IH]; intros h Hh L; cbn [hedge]; [intros []|].
    pose proof (L _ (or_introl eq_refl)) as L0. cbn in L0. intros [<-|I]; [cbn; lia|]. apply (IH (h - Z.min qz h)); [lia | intros z J; apply L; right; exact J | exact I]. }
  unfold need, requirement. apply quot_step; [apply (vc_scale _ V) | apply (vc_imr _ V) | pose proof (C Buy (Z.max 0 (- n)) ltac:(lia)); lia|].
  apply max_step; [exact X | apply K; lia | apply K; lia].
Qed.

(** ** Acceptance *)
Lemma divide_accepted c e sd p uid l ew : valid_config c -> reachable c e -> in_sync c e -> l <> [] -> accepts c e (tickets sd p uid [sumZ l]) ew ->
  sizes_ok c l -> Z.of_nat (length (ex_active e) + length l) <= c_max c ->
  exists ep, accepts c e (tickets sd p uid l) ep /\ wallet_of ew <= wallet_of ep <= wallet_of ew + extra l /\ statement_of ep = statement_of ew /\
    position_margin_of ep = position_margin_of ew.
Proof.
  intros V R Sy N A Sz Len. assert (Q : forall q, In q l -> 0 < q) by (intros q I; apply (Sz q I)). pose proof (sum_pos l Q N) as S.
  destruct (proj1 (batch_exactly c e _ V R Sy) (ex_intro _ _ A)) as (F & M). specialize (M ltac:(discriminate)) as [_ M].
  pose proof (F _ (or_introl eq_refl)) as (P1 & P2 & P3 & P4 & P5). cbn [t_price t_qty t_side] in P1, P2, P3, P4, P5.
  pose proof (need_parts c e sd p uid l (position_quantity (ex_pos e)) V R P1 Q N) as K.
  assert (X : exists ep, accepts c e (tickets sd p uid l) ep).
  { apply (batch_exactly c e _ V R Sy). split.
    - intros t I. apply in_map_iff in I as (q & <- & I). destruct (Sz q I) as [Hq Fq]. unfold suits. cbn [t_price t_qty t_side]. split; [exact P1|]. split; [exact Hq|].
      split; [apply (fault_allowed _ _ (vc_qtick _ V) Hq), Fq|]. split; assumption.
    - intros _. unfold tickets at 1. rewrite map_length. split; [exact Len | lia]. }
  destruct X as (ep & B). exists ep. split; [exact B|].
  destruct (batch_result c e _ ew V R Sy A) as (_ & _ & _ & W1 & W2 & W3 & W4 & _). destruct (batch_result c e _ ep V R Sy B) as (_ & _ & _ & E1 & E2 & E3 & E4 & _).
  split; [lia|]. split; congruence.
Qed.

(** ** Fills *)
Lemma crossing_order o ts sd p : lo_side o = sd -> lo_price o = p -> crossing_qty o ts = crossing_at sd p ts.
Proof.
  intros <- <-. unfold crossing_qty, crossing_at. f_equal. f_equal. apply filter_ext. intros t. unfold crosses, beyond. destruct (lo_side o), (tr_side t); reflexivity.
Qed.
Lemma sum_app a b : sumZ (a ++ b) = sumZ a + sumZ b.
Proof. unfold sumZ. induction a as [|x a IH]; cbn; [reflexivity | lia]. Qed.
Lemma moved_tickets ts tr sd p uid l i : moved tr (entered ts i (tickets sd p uid l)) = signed_by sd (filled_parts (crossing_at sd p tr) l).
Proof.
  revert i. induction l as [|a l IH]; intros i.
  - unfold moved, filled_parts; cbn. destruct sd; reflexivity.
  - cbn [tickets map entered]. fold (tickets sd p uid l). unfold moved in *. cbn [map]. unfold sumZ in *. cbn [fold_right]. rewrite IH. cbn [lo_side t_side]. unfold takes. cbn [lo_rem t_qty].
    rewrite (crossing_order _ tr sd p) by reflexivity. unfold filled_parts, sumZ. cbn [map fold_right]. unfold signed_by. destruct sd; lia.
Qed.
Lemma moved_app tr a b : moved tr (a ++ b) = moved tr a + moved tr b.
Proof. unfold moved. rewrite map_app, sum_app. reflexivity. Qed.
Lemma filled_bounds x l : 0 <= x -> (forall q, In q l -> 0 < q) -> l <> [] ->
  Z.min x (sumZ l) <= filled_parts x l <= Z.min (sumZ l) (x + extra l * x).
Proof.
  intros Hx Q. induction l as [|a l IH]; intros N; [contradiction|]. pose proof (Q a (or_introl eq_refl)) as Ha.
  assert (K : forall q, In q l -> 0 < q) by (intros q I; apply Q; right; exact I). destruct l as [|b l].
  - unfold filled_parts, extra. cbn. lia.
  - specialize (IH K ltac:(discriminate)). pose proof (sum_pos _ K ltac:(discriminate)) as S. change (sumZ (a :: b :: l)) with (a + sumZ (b :: l)).
    change (filled_parts x (a :: b :: l)) with (Z.min x a + filled_parts x (b :: l)). replace (extra (a :: b :: l)) with (extra (b :: l) + 1) by (unfold extra; cbn [length]; lia). lia.
Qed.
Lemma run_reach c e ops e' outs : reachable c e -> run c e ops = Done (e', outs) -> reachable c e'.
Proof. intros (o1 & u1 & e0 & Hi & Hr) H. exists (o1 ++ ops), (u1 ++ outs), e0. split; [exact Hi|]. apply run_app. exists e, u1, outs. auto. Qed.
Lemma divide_filled c e sd p uid l ew ep tr ew' ow ep' op : valid_config c -> reachable c e -> in_sync c e -> l <> [] ->
  accepts c e (tickets sd p uid [sumZ l]) ew -> accepts c e (tickets sd p uid l) ep -> (forall t, In t tr -> 0 < tr_qty t) ->
  run c ew (trade_ops tr) = Done (ew', ow) -> all_accepted ow -> run c ep (trade_ops tr) = Done (ep', op) -> all_accepted op ->
  let x := crossing_at sd p tr in
  position_quantity (ex_pos ep') = position_quantity (ex_pos ew') + signed_by sd (filled_parts x l - Z.min x (sumZ l)) /\
  0 <= filled_parts x l - Z.min x (sumZ l) <= Z.min (extra l * x) (sumZ l - Z.min x (sumZ l)).
Proof.
  intros V R Sy N A B T Hw Aw Hp Ap x.
  destruct (batch_result c e _ ew V R Sy A) as (Rw & W1 & _ & _ & _ & W3 & _). destruct (batch_result c e _ ep V R Sy B) as (Rp & E1 & _ & _ & _ & E3 & _).
  assert (Q : forall q, In q l -> 0 < q).
  { intros q I. destruct (proj1 (batch_exactly c e _ V R Sy) (ex_intro _ _ B)) as (F & _). destruct (F {| t_side := sd; t_price := p; t_qty := q; t_uid := uid |}) as (_ & F2 & _); [apply in_map_iff; eauto | exact F2]. }
  assert (Hx : 0 <= x).
  { unfold x. pose proof (crossing_nonneg {| lo_uid := 0; lo_side := sd; lo_price := p; lo_rem := 0; lo_id := 0; lo_ts := 0; lo_filled := Unfilled |} tr T) as C. rewrite (crossing_order _ tr sd p) in C by reflexivity. exact C. }
  pose proof (run_reach _ _ _ _ _ R Rw) as RW. pose proof (run_reach _ _ _ _ _ R Rp) as RP.
  destruct (trades_split c tr ew ew' ow V RW T Hw Aw) as (_ & Mw). destruct (trades_split c tr ep ep' op V RP T Hp Ap) as (_ & Mp).
  rewrite W1 in Mw. rewrite E1 in Mp. unfold book_with in Mw, Mp. rewrite moved_app, moved_tickets in Mw, Mp. fold x in Mw, Mp.
  assert (P : position_quantity (ex_pos ep) = position_quantity (ex_pos ew)) by (pose proof (f_equal l_qty (eq_trans E3 (eq_sym W3))) as J; exact J).
  pose proof (filled_bounds x l Hx Q N) as FB. assert (O : filled_parts x [sumZ l] = Z.min x (sumZ l)) by (unfold filled_parts; cbn; lia). rewrite O in Mw.
  assert (0 <= extra l * x) by (destruct l; [contradiction|]; unfold extra; cbn [length]; nia). split; [|pose proof (sum_pos l Q N); lia]. rewrite Mw, Mp, P. unfold signed_by. destruct sd; lia.
Qed.
