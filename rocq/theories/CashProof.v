(** A cash account never panics. *)
From Coq Require Import Permutation.
From Verif Require Import ProofBase BookLemmas Inv Spec SpecBook SpecRules SpecMargin SpecConfig SpecMarket SpecPanic SpecFlow SpecMachine SpecCrash
  LedgerProof MarginProof OrderProof SoundProof SyncProof HealthProof MachineProof CrashProof SpecCash.

(** ** Sums over the book *)
Definition total (w : limit_order -> Z) (l : list limit_order) : Z := sumZ (map w l).
Lemma total_cons w o l : total w (o :: l) = w o + total w l.
Proof. reflexivity. Qed.
Lemma total_app w a b : total w (a ++ b) = total w a + total w b.
Proof. induction a as [|x a IH]; [reflexivity|]. cbn [app]. rewrite !total_cons, IH. lia. Qed.
Lemma total_perm w a b : Permutation a b -> total w a = total w b.
Proof. induction 1; rewrite ?total_cons in *; lia. Qed.
Lemma total_nonneg w l : (forall o, In o l -> 0 <= w o) -> 0 <= total w l.
Proof.
  induction l as [|x l IH]; intros H; [cbn; lia|]. rewrite total_cons. pose proof (H x (or_introl eq_refl)).
  pose proof (IH (fun y Hy => H y (or_intror Hy))). lia.
Qed.
Lemma total_in w l o : (forall x, In x l -> 0 <= w x) -> In o l -> w o <= total w l.
Proof.
  induction l as [|x l IH]; intros H Hi; [destruct Hi|]; destruct Hi as [<-|Hi]; rewrite total_cons.
  - pose proof (total_nonneg w l (fun y Hy => H y (or_intror Hy))). lia.
  - pose proof (H x (or_introl eq_refl)). pose proof (IH (fun y Hy => H y (or_intror Hy)) Hi). lia.
Qed.

Lemma take_perm p l o : find p l = Some o -> Permutation l (o :: take_out p l).
Proof.
  induction l as [|x l IH]; [discriminate|]. cbn [find take_out]. destruct (p x).
  - intros H. injection H as ->. apply perm_skip. destruct l as [|y l]; [apply perm_nil|].
    rewrite (app_removelast_last o) at 1 by discriminate. rewrite Permutation_app_comm. reflexivity.
  - intros H. rewrite (IH H) at 1. apply perm_swap.
Qed.
Lemma find_id l o : NoDup (map lo_id l) -> In o l -> find (named (ByOrderId (lo_id o))) l = Some o.
Proof.
  induction l as [|x l IH]; intros Hn Hi; [destruct Hi|]; destruct Hi as [<-|Hi]; cbn [find named].
  - rewrite Z.eqb_refl. reflexivity.
  - inversion Hn; subst. destruct (Z.eqb_spec (lo_id x) (lo_id o)) as [E|]; [|apply IH; assumption].
    exfalso. apply H1. rewrite E. apply in_map. exact Hi.
Qed.
Definition replaced (o o' : limit_order) (l : list limit_order) : list limit_order := map (fun x => if lo_id x =? lo_id o then o' else x) l.
Lemma replaced_other o o' l : ~ In (lo_id o) (map lo_id l) -> replaced o o' l = l.
Proof.
  induction l as [|x l IH]; intros H; [reflexivity|]. cbn in *. destruct (Z.eqb_spec (lo_id x) (lo_id o)); [exfalso; tauto|].
  f_equal. apply IH. tauto.
Qed.
Lemma replaced_perm o o' l : NoDup (map lo_id l) -> In o l -> exists r, Permutation l (o :: r) /\ Permutation (replaced o o' l) (o' :: r).
Proof.
  induction l as [|x l IH]; intros Hn Hi; [destruct Hi|]; destruct Hi as [<-|Hi].
  - inversion Hn; subst. exists l. split; [reflexivity|]. cbn. rewrite Z.eqb_refl. fold (replaced x o' l). rewrite replaced_other by assumption. reflexivity.
  - inversion Hn; subst. destruct (IH H2 Hi) as (r & E1 & E2). exists (x :: r). cbn.
    destruct (Z.eqb_spec (lo_id x) (lo_id o)) as [E|].
    + exfalso. apply H1. rewrite E. apply in_map. exact Hi.
    + fold (replaced o o' l). rewrite E2. rewrite E1 at 1. split; apply perm_swap.
Qed.

(** ** Rounding *)
Lemma quot_le a b s : 0 < s -> 0 <= a <= b -> Z.quot a s <= Z.quot b s.
Proof. intros. apply Z.quot_le_mono; lia. Qed.
Lemma quot_add a b s : 0 < s -> 0 <= a -> 0 <= b -> Z.quot a s + Z.quot b s <= Z.quot (a + b) s.
Proof.
  intros Hs Ha Hb. rewrite !Z.quot_div_nonneg by lia. apply Z.div_le_lower_bound; [lia|].
  pose proof (Z.mul_div_le a s Hs). pose proof (Z.mul_div_le b s Hs). lia.
Qed.
Lemma value_pos s q p : 0 < s -> 0 < q -> s <= p -> q <= value Linear s q p.
Proof. intros. cbn [value]. rewrite <- (Z.quot_mul q s) at 1 by lia. apply quot_le; nia. Qed.
Lemma value_add s q r p : 0 < s -> 0 <= q -> 0 <= r -> 0 <= p -> value Linear s q p + value Linear s r p <= value Linear s (q + r) p.
Proof. intros. cbn [value]. rewrite Z.mul_add_distr_r. apply quot_add; nia. Qed.
Lemma value_nonneg s q p : 0 < s -> 0 <= q -> 0 <= p -> 0 <= value Linear s q p.
Proof. intros. cbn [value]. apply Z.quot_pos; nia. Qed.
Lemma fee_add s a b r : 0 < s -> 0 <= a -> 0 <= b -> 0 <= r -> Z.quot (a * r) s + Z.quot (b * r) s <= Z.quot ((a + b) * r) s.
Proof. intros. rewrite Z.mul_add_distr_r. apply quot_add; nia. Qed.
Lemma fee_le s a r : 0 < s -> 0 <= a -> 0 <= r <= s -> 0 <= Z.quot (a * r) s <= a.
Proof.
  intros. split; [apply Z.quot_pos; nia|]. rewrite <- (Z.quot_mul a s) at 2 by lia. apply quot_le; nia.
Qed.
Lemma average_cash s e n p q :
  0 < s -> s <= e -> s <= p -> 0 < n -> 0 < q ->
  s <= average s e n p q /\ value Linear s (n + q) (average s e n p q) <= value Linear s n e + value Linear s q p.
Proof.
  intros Hs He Hp Hn Hq. unfold average. cbn [value].
  replace (e * n) with (n * e) by lia. replace (p * q) with (q * p) by lia.
  pose proof (value_pos s n e Hs Hn He) as A. pose proof (value_pos s q p Hs Hq Hp) as B. cbn [value] in A, B.
  set (a := Z.quot (n * e) s) in *. set (b := Z.quot (q * p) s) in *. clearbody a b.
  rewrite (Z.quot_div_nonneg ((a + b) * s)) by nia. split.
  - apply Z.div_le_lower_bound; nia.
  - rewrite Z.quot_div_nonneg; [|apply Z.mul_nonneg_nonneg; [lia|apply Z.div_pos; nia]|lia].
    apply Z.div_le_upper_bound; [lia|]. pose proof (Z.mul_div_le ((a + b) * s) (n + q) ltac:(lia)). lia.
Qed.

(** ** The margin of a covered book is the value of its buys *)
Definition spent (c : config) (o : limit_order) : Z := match lo_side o with Buy => value Linear (c_scale c) (lo_rem o) (lo_price o) | Sell => 0 end.
Definition selling (o : limit_order) : Z := match lo_side o with Buy => 0 | Sell => lo_rem o end.
Definition buy_fee (c : config) (o : limit_order) : Z :=
  match lo_side o with Buy => Z.quot (value Linear (c_scale c) (lo_rem o) (lo_price o) * ct_maker (c_spec c)) (c_scale c) | Sell => 0 end.
Lemma offered_total l : offered l = total selling l.
Proof. reflexivity. Qed.
Lemma buy_fees_total c l : c_kind c = Linear -> buy_fees c l = total (buy_fee c) l.
Proof. intros K. unfold buy_fees, total, buy_fee, fee. cbn [f_qty f_price f_rate]. rewrite K. reflexivity. Qed.

Lemma hedge_all s l h : 0 < s -> (forall x, In x l -> 0 <= snd x) -> sumZ (map snd l) <= h -> cost Linear s (hedge h l) = 0.
Proof.
  intros Hs. revert h. induction l as [|[p q] l IH]; intros h H Hh; [reflexivity|]. cbn [hedge]. rewrite cost_cons.
  change (q + sumZ (map snd l) <= h) in Hh. assert (0 <= q) by (apply (H (p, q)); left; reflexivity).
  assert (0 <= sumZ (map snd l)). { clear -H. induction l as [|x l IH]; [cbn; lia|]. change (0 <= snd x + sumZ (map snd l)). pose proof (H x ltac:(right; left; reflexivity)).
    assert (0 <= sumZ (map snd l)) by (apply IH; intros y [Hy|Hy]; apply H; [left|right; right]; assumption). lia. }
  rewrite Z.min_l by lia. cbn [fst snd]. rewrite IH; [|intros x Hx; apply H; right; exact Hx | lia].
  cbn [value]. rewrite Z.sub_diag. cbn [Z.mul]. rewrite Z.quot_0_l by lia. reflexivity.
Qed.
Lemma cost_perm k s a b : Permutation a b -> cost k s a = cost k s b.
Proof. induction 1; rewrite ?cost_cons in *; lia. Qed.
Lemma cost_pairs c l : cost Linear (c_scale c) (pairs Buy l) = total (spent c) l.
Proof.
  induction l as [|o l IH]; [reflexivity|]. rewrite pairs_cons, total_cons. unfold spent at 1. destruct (lo_side o); cbn [side_eq_dec app].
  - destruct (side_eq_dec Buy Buy); [|congruence]. cbn [app]. rewrite cost_cons, IH. reflexivity.
  - destruct (side_eq_dec Sell Buy); [congruence|]. cbn [app]. rewrite IH. lia.
Qed.
Lemma sum_pairs l : sumZ (map snd (pairs Sell l)) = total selling l.
Proof.
  induction l as [|o l IH]; [reflexivity|]. rewrite pairs_cons, total_cons. unfold selling at 1. destruct (lo_side o).
  - destruct (side_eq_dec Buy Sell); [congruence|]. cbn [app]. rewrite IH. lia.
  - destruct (side_eq_dec Sell Sell); [|congruence]. cbn [app map]. change (lo_rem o + sumZ (map snd (pairs Sell l)) = lo_rem o + total selling l). lia.
Qed.
Lemma sum_snd_perm (a b : list (Z * Z)) : Permutation a b -> sumZ (map snd a) = sumZ (map snd b).
Proof. induction 1; cbn in *; unfold sumZ in *; cbn in *; lia. Qed.
Lemma ranking_perm sd l : Permutation (ranking sd l) (pairs sd l).
Proof. rewrite ranking_sorted. apply sorted_arranged. Qed.

Definition fine (c : config) (l : list limit_order) : Prop := forall o, In o l -> 0 < lo_rem o /\ c_scale c <= lo_price o.

Lemma need_cash c l n :
  0 < c_scale c -> cash_config c -> fine c l -> 0 <= n -> total selling l <= n -> need c l n = total (spent c) l.
Proof.
  intros Hs (K & I & _) F Hn Hc. unfold need, requirement. rewrite K, I.
  assert (P : forall sd x, In x (ranking sd l) -> 0 <= snd x).
  { intros sd x Hx. apply (Permutation_in _ (ranking_perm sd l)) in Hx. apply pairs_in in Hx as (o & Ho & _ & ->). cbn. destruct (F o Ho). lia. }
  rewrite (Z.max_l 0 (- n)), (Z.max_r 0 n) by lia. rewrite hedge_0 by apply P.
  rewrite (cost_perm _ _ _ _ (ranking_perm Buy l)), cost_pairs.
  rewrite (hedge_all _ _ _ Hs (P Sell)) by (rewrite (sum_snd_perm _ _ (ranking_perm Sell l)), sum_pairs; exact Hc).
  assert (0 <= total (spent c) l).
  { apply total_nonneg. intros o Ho. destruct (F o Ho). unfold spent. destruct (lo_side o); [|lia]. apply value_nonneg; lia. }
  rewrite Z.max_l by lia. apply Z.quot_mul. lia.
Qed.

(** ** The invariant *)
Record cash (c : config) (m : machine) : Prop := {
  ca_pos : 0 <= m_pos m;
  ca_entry : 0 < m_pos m -> c_scale c <= l_entry (m_book m) /\ value Linear (c_scale c) (m_pos m) (l_entry (m_book m)) <= m_held m;
  ca_fine : fine c (m_orders m);
  ca_cover : covered m;
  ca_sync : m_reserved m = total (spent c) (m_orders m);
  ca_held : 0 <= m_held m;
  ca_fees : provided c m;
  ca_bid : 0 <= m_bid m
}.

Definition harmless (c : config) (x : option panic_site) : Prop := x = None \/ (c_dbg c = true /\ x = Some PCloseMarginDebug).
Lemma harmless_first c l : Forall (harmless c) l -> harmless c (first_of l).
Proof. induction 1 as [|x l [->|[D ->]] _ IH]; cbn [first_of]; [left; reflexivity | exact IH | right; auto]. Qed.
Lemma harmless_none c : harmless c None.
Proof. left; reflexivity. Qed.
Lemma harmless_demand c b w : b = true -> harmless c (demand b w).
Proof. intros ->. left; reflexivity. Qed.
Lemma harmless_two c a b : harmless c a -> harmless c b -> harmless c (first_of [a; b]).
Proof. intros. apply harmless_first. apply Forall_cons; [assumption|]. apply Forall_cons; [assumption|apply Forall_nil]. Qed.
Lemma harmless_debug c x : harmless c x -> harmless c (in_debug c x).
Proof. unfold in_debug. destruct (c_dbg c); [auto | intros; left; reflexivity]. Qed.

(** ** Fills *)
Definition bought (q p r : Z) : fill := {| f_side := Buy; f_qty := q; f_price := p; f_rate := r |}.
Definition sold (q p r : Z) : fill := {| f_side := Sell; f_qty := q; f_price := p; f_rate := r |}.
Definition entered (c : config) (m : machine) : Prop :=
  0 < m_pos m -> c_scale c <= l_entry (m_book m) /\ value Linear (c_scale c) (m_pos m) (l_entry (m_book m)) <= m_held m.

Lemma margin_cash c q p : 0 < c_scale c -> cash_config c -> margin_at c q p = value Linear (c_scale c) q p.
Proof. intros Hs (K & I & _). unfold margin_at. rewrite K, I. apply Z.quot_mul. lia. Qed.

Lemma sgn_pos a b : 0 < a -> 0 < b -> (Z.sgn a =? Z.sgn b) = true.
Proof. intros. rewrite !Z.sgn_pos by lia. reflexivity. Qed.
Lemma sgn_neg a b : 0 < a -> b < 0 -> (Z.sgn a =? Z.sgn b) = false.
Proof. intros. rewrite (Z.sgn_pos a), (Z.sgn_neg b) by lia. reflexivity. Qed.

Lemma buy_fill c m q p r :
  0 < c_scale c -> cash_config c -> 0 <= m_pos m -> 0 <= m_held m -> entered c m -> 0 < q -> c_scale c <= p -> 0 <= r <= c_scale c ->
  let m1 := m_fill c m (bought q p r) in
  let v := value Linear (c_scale c) q p in
  fill_crash c m (bought q p r) = None /\ m_pos m1 = m_pos m + q /\ entered c m1 /\ m_held m1 = m_held m + v /\
  l_cash (m_book m1) = l_cash (m_book m) /\ Z.max 0 (l_due (m_book m1)) <= Z.max 0 (l_due (m_book m)) + Z.quot (v * r) (c_scale c).
Proof.
  intros Hs C Hp Hh He Hq Hpr Hr m1 v. pose proof C as (K & I & _).
  assert (Hv : 0 < v) by (unfold v; pose proof (value_pos (c_scale c) q p Hs Hq Hpr); lia).
  assert (Hf : 0 <= Z.quot (v * r) (c_scale c)) by (apply fee_le; lia).
  unfold m1, m_pos, entered, fill_crash, m_fill, margin_after, apply_fill in *. cbn [m_book m_held f_side f_qty f_price f_rate bought signed_qty].
  unfold m_pos. cbn [m_book].
  destruct (Z.eqb_spec (l_qty (m_book m)) 0) as [E|E]; cbn [orb].
  - rewrite margin_cash by assumption. fold v. destruct (Z.ltb_spec 0 v); [|lia].
    split; [reflexivity|]. split; [cbn; lia|]. split; [|split; [reflexivity | split; [reflexivity|]]].
    + cbn [l_qty l_entry]. intros _. fold v. split; lia.
    + cbn [l_due]. unfold fee. cbn [f_qty f_price f_rate bought]. rewrite K. fold v. lia.
  - assert (Hp' : 0 < l_qty (m_book m)) by lia. rewrite sgn_pos by lia. rewrite margin_cash by assumption. fold v. destruct (Z.ltb_spec 0 v); [|lia].
    split; [reflexivity|]. split; [reflexivity|]. split; [|split; [reflexivity | split; [reflexivity|]]].
    + cbn [l_qty l_entry]. intros _. destruct (He Hp') as [He1 He2]; change (m_pos m) with (l_qty (m_book m)) in He2. rewrite Z.abs_eq by lia.
      destruct (average_cash (c_scale c) (l_entry (m_book m)) (l_qty (m_book m)) p q Hs He1 Hpr Hp' Hq) as [A B]. fold v in B. split; [exact A | lia].
    + cbn [l_due]. unfold fee. cbn [f_qty f_price f_rate bought]. rewrite K. fold v. lia.
Qed.

Lemma sell_fill c m q p r :
  0 < c_scale c -> cash_config c -> 0 <= m_held m -> entered c m -> 0 < q <= m_pos m -> 0 <= p -> 0 <= r <= c_scale c ->
  let m1 := m_fill c m (sold q p r) in
  harmless c (fill_crash c m (sold q p r)) /\ m_pos m1 = m_pos m - q /\ entered c m1 /\ 0 <= m_held m1 /\
  l_cash (m_book m) - m_held m - Z.max 0 (l_due (m_book m)) <= l_cash (m_book m1) - m_held m1 /\ l_due (m_book m1) <= 0.
Proof.
  intros Hs C Hh He Hq Hpr Hr m1. pose proof C as (K & I & _).
  unfold m1, m_pos, entered, fill_crash, m_fill, margin_after, apply_fill in *. cbn [m_book m_held f_side f_qty f_price f_rate sold signed_qty].
  unfold m_pos. cbn [m_book].
  destruct (Z.eqb_spec (l_qty (m_book m)) 0) as [E|E]; cbn [orb]; [lia|].
  assert (Hp' : 0 < l_qty (m_book m)) by lia. rewrite sgn_neg by lia. destruct (He Hp') as [He1 He2]; change (m_pos m) with (l_qty (m_book m)) in He2.
  rewrite (Z.abs_eq (l_qty (m_book m))) by lia. rewrite (Z.min_l q) by lia. rewrite (Z.min_r (l_qty (m_book m))) by lia.
  rewrite !margin_cash by assumption.
  pose proof (value_pos (c_scale c) q (l_entry (m_book m)) Hs ltac:(lia) He1) as Hv.
  pose proof (value_add (c_scale c) q (l_qty (m_book m) - q) (l_entry (m_book m)) Hs ltac:(lia) ltac:(lia) ltac:(lia)) as Ha.
  replace (q + (l_qty (m_book m) - q)) with (l_qty (m_book m)) in Ha by lia.
  pose proof (value_nonneg (c_scale c) (l_qty (m_book m) - q) (l_entry (m_book m)) Hs ltac:(lia) ltac:(lia)) as Hn.
  pose proof (value_nonneg (c_scale c) q p Hs ltac:(lia) Hpr) as Hx.
  pose proof (fee_le (c_scale c) (value Linear (c_scale c) q p) r Hs Hx Hr) as Hf.
  split; [|split; [reflexivity | split; [|split; [|split]]]].
  - apply harmless_first. repeat apply Forall_cons; try apply Forall_nil.
    + apply harmless_demand. unfold divides. rewrite K. reflexivity.
    + apply harmless_debug, harmless_demand. lia.
    + apply harmless_demand. lia.
    + destruct (Z.compare_spec q (l_qty (m_book m))).
      * unfold in_debug, demand, harmless. destruct (c_dbg c); [|auto]. match goal with |- context [if ?b then _ else _] => destruct b end; auto.
      * apply harmless_none.
      * lia.
  - cbn [l_qty l_entry]. intros Hr'. assert (Hlt : 0 < l_qty (m_book m) - q) by lia. clear Hr'.
    replace (l_qty (m_book m) + - q) with (l_qty (m_book m) - q) by lia.
    destruct (Z.eqb_spec (l_qty (m_book m) - q) 0); [lia|]. rewrite sgn_pos by lia. split; [exact He1|].
    destruct (Z.leb_spec q (l_qty (m_book m))); [|lia]. lia.
  - destruct (Z.leb_spec q (l_qty (m_book m))); [|lia]. lia.
  - cbn [l_cash]. destruct (Z.leb_spec q (l_qty (m_book m))); [|lia]. rewrite (Z.sgn_pos (l_qty (m_book m))) by lia.
    unfold fee. cbn [f_qty f_price f_rate sold gain]. rewrite K. cbn [gain]. lia.
  - cbn [l_due]. match goal with |- context [if ?b then _ else _] => destruct b end; lia.
Qed.

(** ** Resting orders meet the market *)
Definition busy (ru : raw_update) : Prop :=
  match ru with RTrade t => 0 < tr_qty t | RSmart l _ _ => forall t, In t l -> 0 < tr_qty t | _ => True end.
Lemma touched_bounds ru o q : busy ru -> 0 < lo_rem o -> touched ru o = Some q -> 0 < q <= lo_rem o.
Proof.
  intros B Hr. destruct ru as [b|t|k|l b f]; cbn [touched busy] in *; [discriminate| | |].
  - destruct (crosses o t); [|discriminate]. intros H. injection H as <-. lia.
  - destruct (beyond o _); [|discriminate]. intros H. injection H as <-. lia.
  - destruct (existsb (crosses o) l) eqn:E; [|discriminate]. intros H. injection H as <-.
    assert (0 < crossing_qty o l); [|lia]. unfold crossing_qty. revert E. induction l as [|t l IH]; [discriminate|].
    cbn [existsb filter]. pose proof (B t (or_introl eq_refl)) as Ht.
    assert (Hl : 0 <= sumZ (map tr_qty (filter (crosses o) l))).
    { clear -B. induction l as [|x l IH]; [cbn; lia|]. cbn [filter].
      assert (0 <= sumZ (map tr_qty (filter (crosses o) l))) by (apply IH; intros y [Hy|Hy]; apply B; [left|right; right]; assumption).
      pose proof (B x ltac:(right; left; reflexivity)). destruct (crosses o x); [|lia].
      change (0 <= tr_qty x + sumZ (map tr_qty (filter (crosses o) l))). lia. }
    destruct (crosses o t); cbn [orb].
    + intros _. change (0 < tr_qty t + sumZ (map tr_qty (filter (crosses o) l))). lia.
    + apply IH. intros y Hy. apply B. right. exact Hy.
Qed.

(** The book after [q] contracts of [o] are filled. *)
Definition book_next (c : config) (ru : raw_update) (l : list limit_order) (o : limit_order) (q : Z) : list limit_order :=
  match reported_as (c_scale c) o q (time_of ru) with
  | FullyFilled _ => take_out (named (ByOrderId (lo_id o))) l
  | PartiallyFilled o' => map (fun x => if lo_id x =? lo_id o then o' else x) l
  end.
Lemma book_next_perm c ru l o q :
  NoDup (map lo_id l) -> In o l -> 0 < q <= lo_rem o ->
  exists r, Permutation l (o :: r) /\
    ((q = lo_rem o /\ Permutation (book_next c ru l o q) r) \/
     (q < lo_rem o /\ exists o', lo_side o' = lo_side o /\ lo_price o' = lo_price o /\ lo_rem o' = lo_rem o - q /\ lo_id o' = lo_id o /\
        Permutation (book_next c ru l o q) (o' :: r))).
Proof.
  intros Hn Ho Hq. unfold book_next, reported_as. destruct (Z.eqb_spec q (lo_rem o)).
  - exists (take_out (named (ByOrderId (lo_id o))) l). split; [apply take_perm, find_id; assumption|]. left. auto.
  - match goal with |- context [map (fun x => if lo_id x =? lo_id o then ?a else x) l] => set (o' := a) end.
    destruct (replaced_perm o o' l Hn Ho) as (r & E1 & E2). exists r. split; [exact E1|]. right. split; [lia|]. exists o'. auto 6.
Qed.

Lemma fine_perm c a b : Permutation a b -> fine c a -> fine c b.
Proof. intros P F o Ho. apply F. eapply Permutation_in; [apply Permutation_sym; exact P | exact Ho]. Qed.

Lemma book_next_facts c ru l o q :
  0 < c_scale c -> cash_config c -> NoDup (map lo_id l) -> fine c l -> In o l -> 0 < q <= lo_rem o ->
  let l' := book_next c ru l o q in
  NoDup (map lo_id l') /\ fine c l' /\ (forall x, In x l -> lo_id x <> lo_id o -> In x l') /\
  match lo_side o with
  | Buy => total selling l' = total selling l /\
           total (spent c) l' + value Linear (c_scale c) q (lo_price o) <= total (spent c) l /\
           total (buy_fee c) l' + Z.quot (value Linear (c_scale c) q (lo_price o) * ct_maker (c_spec c)) (c_scale c) <= total (buy_fee c) l
  | Sell => total selling l' = total selling l - q /\ total (spent c) l' = total (spent c) l /\ total (buy_fee c) l' = total (buy_fee c) l
  end.
Proof.
  intros Hs (K & _ & _ & M & _) Hn F Ho Hq l'. destruct (book_next_perm c ru l o q Hn Ho Hq) as (r & E1 & H). fold l' in H.
  destruct (F o Ho) as [F1 F2].
  assert (Hn' : NoDup (map lo_id (o :: r))) by (eapply Permutation_NoDup; [apply Permutation_map; exact E1 | exact Hn]).
  pose proof (fine_perm c _ _ E1 F) as F'.
  destruct H as [[Eq P]|(Hlt & o' & S' & P' & R' & I' & P)].
  - split; [|split; [|split]].
    + inversion Hn'; subst. eapply Permutation_NoDup; [apply Permutation_map, Permutation_sym; exact P | assumption].
    + apply (fine_perm c r); [apply Permutation_sym; exact P|]. intros x Hx. apply F'. right. exact Hx.
    + intros x Hx Hne. apply (Permutation_in _ (Permutation_sym P)). apply (Permutation_in _ E1) in Hx. destruct Hx as [<-|Hx]; [congruence|exact Hx].
    + rewrite !(total_perm _ _ _ P), !(total_perm _ _ _ E1), !total_cons. clear P.
      pose proof (eq_refl (selling o)) as W1. pose proof (eq_refl (spent c o)) as W2. pose proof (eq_refl (buy_fee c o)) as W3.
      unfold selling at 1 in W1. unfold spent at 1 in W2. unfold buy_fee at 1 in W3. rewrite <- Eq in W1, W2, W3.
      destruct (lo_side o); lia.
  - split; [|split; [|split]].
    + eapply Permutation_NoDup; [apply Permutation_map, Permutation_sym; exact P|]. cbn [map] in *. rewrite I'. exact Hn'.
    + apply (fine_perm c (o' :: r)); [apply Permutation_sym; exact P|]. intros x [<-|Hx]; [lia | apply F'; right; exact Hx].
    + intros x Hx Hne. apply (Permutation_in _ (Permutation_sym P)). apply (Permutation_in _ E1) in Hx. destruct Hx as [<-|Hx]; [congruence|right; exact Hx].
    + rewrite !(total_perm _ _ _ P), !(total_perm _ _ _ E1), !total_cons.
      pose proof (eq_refl (selling o)) as W1. pose proof (eq_refl (spent c o)) as W2. pose proof (eq_refl (buy_fee c o)) as W3.
      unfold selling at 1 in W1. unfold spent at 1 in W2. unfold buy_fee at 1 in W3.
      pose proof (eq_refl (selling o')) as X1. pose proof (eq_refl (spent c o')) as X2. pose proof (eq_refl (buy_fee c o')) as X3.
      unfold selling at 1 in X1. unfold spent at 1 in X2. unfold buy_fee at 1 in X3. rewrite S', R' in X1. rewrite S', P', R' in X2, X3.
      pose proof (value_add (c_scale c) (lo_rem o - q) q (lo_price o) Hs ltac:(lia) ltac:(lia) ltac:(lia)) as A.
      replace (lo_rem o - q + q) with (lo_rem o) in A by lia.
      pose proof (value_nonneg (c_scale c) (lo_rem o - q) (lo_price o) Hs ltac:(lia) ltac:(lia)) as A1.
      pose proof (value_nonneg (c_scale c) q (lo_price o) Hs ltac:(lia) ltac:(lia)) as A2.
      pose proof (fee_add (c_scale c) _ _ (ct_maker (c_spec c)) Hs A1 A2 ltac:(lia)) as B.
      assert (B' : Z.quot ((value Linear (c_scale c) (lo_rem o - q) (lo_price o) + value Linear (c_scale c) q (lo_price o)) * ct_maker (c_spec c)) (c_scale c)
                   <= Z.quot (value Linear (c_scale c) (lo_rem o) (lo_price o) * ct_maker (c_spec c)) (c_scale c)) by (apply quot_le; [exact Hs | nia]).
      destruct (lo_side o); lia.
Qed.

Lemma free_eq m : m_free m = l_cash (m_book m) - m_held m - m_reserved m.
Proof. reflexivity. Qed.
Lemma selling_nonneg c l : fine c l -> 0 <= total selling l.
Proof. intros F. apply total_nonneg. intros o Ho. destruct (F o Ho). unfold selling. destruct (lo_side o); lia. Qed.
Lemma fees_nonneg c l : 0 < c_scale c -> cash_config c -> fine c l -> 0 <= total (buy_fee c) l.
Proof.
  intros Hs (_ & _ & _ & M & _) F. apply total_nonneg. intros o Ho. destruct (F o Ho). unfold buy_fee. destruct (lo_side o); [|lia].
  apply fee_le; [lia | apply value_nonneg; lia | lia].
Qed.
Lemma cash_need c m : 0 < c_scale c -> cash_config c -> cash c m -> m_reserved m = need c (m_orders m) (m_pos m).
Proof. intros Hs C I. rewrite (ca_sync _ _ I). symmetry. apply need_cash; try assumption; apply I. Qed.

Lemma meet_cash c ru m o :
  0 < c_scale c -> cash_config c -> busy ru -> cash c m -> NoDup (map lo_id (m_orders m)) -> In o (m_orders m) ->
  harmless c (meet_crash c ru m o) /\ cash c (m_meet c ru m o) /\ NoDup (map lo_id (m_orders (m_meet c ru m o))) /\
  (forall x, In x (m_orders m) -> lo_id x <> lo_id o -> In x (m_orders (m_meet c ru m o))).
Proof.
  intros Hs C B I Hn Ho. pose proof C as (K & _ & _ & M & T).
  assert (D : harmless c (match ru with RTrade t => in_debug c (demand (0 <? tr_qty t) PTradeQtyDebug) | _ => None end)).
  { destruct ru; try apply harmless_none. apply harmless_debug, harmless_demand. cbn in B. lia. }
  unfold meet_crash. destruct (touched ru o) as [q|] eqn:Et.
  2:{ split; [apply harmless_two; [exact D | apply harmless_none]|].
      assert (Em : m_meet c ru m o = m) by (unfold m_meet; rewrite Et; reflexivity). rewrite Em. auto. }
  destruct (ca_fine _ _ I o Ho) as [F1 F2]. pose proof (touched_bounds ru o q B F1 Et) as Hq.
  pose proof (ca_cover _ _ I) as Hc. unfold covered in Hc. rewrite offered_total in Hc.
  destruct (book_next_facts c ru (m_orders m) o q Hs C Hn (ca_fine _ _ I) Ho Hq) as (N' & F' & O' & W).
  set (l' := book_next c ru (m_orders m) o q) in *.
  set (f := {| f_side := lo_side o; f_qty := q; f_price := lo_price o; f_rate := ct_maker (c_spec c) |}).
  assert (Em : m_meet c ru m o = with_orders (m_fill c m f) l' (Z.min (m_reserved m) (need c l' (m_pos (m_fill c m f))))).
  { unfold m_meet. rewrite Et. reflexivity. }
  pose proof (selling_nonneg c l' F') as Hsn.
  assert (Hsell : lo_side o = Sell -> q <= m_pos m).
  { intros E. rewrite E in W. lia. }
  assert (Key : harmless c (fill_crash c m f) /\ 0 <= m_pos (m_fill c m f) /\ entered c (m_fill c m f) /\ 0 <= m_held (m_fill c m f) /\
     total selling l' <= m_pos (m_fill c m f) /\ total (spent c) l' <= m_reserved m /\
     Z.max 0 (l_due (m_book (m_fill c m f))) + total (buy_fee c) l' <=
       l_cash (m_book (m_fill c m f)) - m_held (m_fill c m f) - total (spent c) l').
  { pose proof (ca_fees _ _ I) as P. unfold provided in P. rewrite buy_fees_total, free_eq, (ca_sync _ _ I) in P by exact K. rewrite (ca_sync _ _ I).
    destruct (lo_side o) eqn:Es.
    - destruct (buy_fill c m q (lo_price o) (ct_maker (c_spec c)) Hs C (ca_pos _ _ I) (ca_held _ _ I) (ca_entry _ _ I) ltac:(lia) F2 M)
        as (X1 & X2 & X3 & X4 & X5 & X6).
      change (bought q (lo_price o) (ct_maker (c_spec c))) with f in *. pose proof (ca_pos _ _ I). pose proof (ca_held _ _ I).
      pose proof (value_nonneg (c_scale c) q (lo_price o) Hs ltac:(lia) ltac:(lia)).
      split; [left; exact X1|]. split; [lia|]. split; [exact X3|]. rewrite X5 in *. lia.
    - specialize (Hsell eq_refl).
      destruct (sell_fill c m q (lo_price o) (ct_maker (c_spec c)) Hs C (ca_held _ _ I) (ca_entry _ _ I) ltac:(lia) ltac:(lia) M)
        as (X1 & X2 & X3 & X4 & X5 & X6).
      change (sold q (lo_price o) (ct_maker (c_spec c))) with f in *.
      split; [exact X1|]. split; [lia|]. split; [exact X3|]. lia. }
  destruct Key as (Y1 & Y2 & Y3 & Y4 & Y5 & Y6 & Y7).
  rewrite (need_cash c l' _ Hs C F' Y2 Y5), Z.min_r in Em by exact Y6. rewrite Em.
  split; [|split; [|split]].
  - apply harmless_two; [exact D|]. apply harmless_first. repeat apply Forall_cons; try apply Forall_nil.
    + apply harmless_debug, harmless_demand. rewrite <- (cash_need c m Hs C I). apply Z.eqb_refl.
    + apply harmless_demand. lia.
    + exact Y1.
    + apply harmless_debug, harmless_demand. cbn [m_orders with_orders]. unfold m_pos in *. cbn [m_book with_orders] in *.
      rewrite (need_cash c l' _ Hs C F' Y2 Y5). lia.
  - constructor; unfold covered, provided, m_free, m_pos in *; cbn [m_book m_orders m_held m_reserved m_bid with_orders]; try assumption.
    + reflexivity.
    + rewrite buy_fees_total by exact K. lia.
    + apply I.
  - exact N'.
  - exact O'.
Qed.

Lemma loop_cash c ru todo : forall m,
  0 < c_scale c -> cash_config c -> busy ru -> cash c m -> NoDup (map lo_id (m_orders m)) -> NoDup (map lo_id todo) ->
  (forall o, In o todo -> In o (m_orders m)) ->
  harmless c (meet_all_crash c ru m todo) /\ cash c (fold_left (m_meet c ru) todo m).
Proof.
  induction todo as [|o todo IH]; intros m Hs C B I Hn Ht Hi; cbn [meet_all_crash fold_left]; [split; [apply harmless_none | exact I]|].
  destruct (meet_cash c ru m o Hs C B I Hn (Hi o (or_introl eq_refl))) as (X1 & X2 & X3 & X4). inversion Ht; subst.
  assert (Hi' : forall x, In x todo -> In x (m_orders (m_meet c ru m o))).
  { intros x Hx. apply X4; [apply Hi; right; exact Hx|]. intros E. apply H1. rewrite <- E. apply in_map. exact Hx. }
  destruct (IH _ Hs C B X2 X3 H2 Hi') as [Y1 Y2]. split; [|exact Y2]. apply harmless_two; assumption.
Qed.

Lemma provided_free c m : 0 < c_scale c -> cash_config c -> cash c m -> 0 <= m_free m.
Proof.
  intros Hs C I. pose proof (ca_fees _ _ I) as P. unfold provided in P. pose proof C as (K & _).
  rewrite buy_fees_total in P by exact K. pose proof (fees_nonneg c _ Hs C (ca_fine _ _ I)). lia.
Qed.

Lemma check_cash c ru m :
  0 < c_scale c -> cash_config c -> busy ru -> cash c m -> NoDup (map lo_id (m_orders m)) ->
  harmless c (check_crash c m ru) /\ cash c (m_meet_all c ru m).
Proof.
  intros Hs C B I Hn. destruct (loop_cash c ru (m_orders m) m Hs C B I Hn Hn (fun _ H => H)) as [X Y]. split; [|exact Y].
  change (fold_left (m_meet c ru) (m_orders m) m) with (m_meet_all c ru m) in Y.
  unfold check_crash. destruct ru; [apply harmless_none| | |];
    (apply harmless_first; repeat apply Forall_cons; try apply Forall_nil;
     [exact X | apply harmless_debug, harmless_demand; rewrite <- (cash_need _ _ Hs C Y); apply Z.eqb_refl
     | apply harmless_demand; pose proof (provided_free _ _ Hs C Y); lia]).
Qed.

(** ** Calls *)
Lemma cash_id c m : cash c m -> cash c (with_id m).
Proof. intros I. constructor; apply I. Qed.
Lemma cash_quote c m ru : cash c m -> match quote_of ru with Some (b, _) => 0 <= b | None => True end -> cash c (with_quote m ru).
Proof.
  intros I Q. constructor; try apply I. unfold with_quote. cbn [m_bid]. destruct (quote_of ru) as [[b a]|]; [exact Q | apply I].
Qed.

Lemma submit_cash c m sd p q uid :
  0 < c_scale c -> cash_config c -> cash c m -> c_scale c <= p -> 0 < q ->
  covered (fst (m_submit c m sd p q uid)) -> provided c (fst (m_submit c m sd p q uid)) ->
  harmless c (submit_crash c m sd p q uid) /\ cash c (fst (m_submit c m sd p q uid)).
Proof.
  intros Hs C I Hp Hq Hc Hf. pose proof (cash_id c m I) as I'. unfold submit_crash. unfold m_submit in *.
  destruct (quantity_fault _ _); [split; [apply harmless_none | exact I]|].
  destruct (price_fault _ _ _ _); [split; [apply harmless_none | exact I]|].
  set (o := {| lo_uid := uid; lo_side := sd; lo_price := p; lo_rem := q; lo_id := m_next m; lo_ts := m_time m; lo_filled := Unfilled |}) in *.
  set (l := m_orders m ++ [o]) in *. cbv zeta in *.
  destruct (_ <? need c l (m_pos m)); [split; [apply harmless_none | exact I']|].
  destruct (match sd with Buy => _ | Sell => _ end); [split; [apply harmless_none | exact I']|].
  destruct (c_max c <=? _); [split; [apply harmless_none | exact I']|].
  assert (F : fine c l).
  { intros x Hx. apply in_app_or in Hx as [Hx|[<-|[]]]; [apply (ca_fine _ _ I); exact Hx | cbn; lia]. }
  assert (Hc' : total selling l <= m_pos m) by exact Hc.
  pose proof (ca_pos _ _ I) as Hpos. rewrite (need_cash c l (m_pos m) Hs C F Hpos Hc') in *.
  assert (Hge : m_reserved m <= total (spent c) l).
  { rewrite (ca_sync _ _ I). unfold l. rewrite total_app. assert (0 <= total (spent c) [o]); [|lia].
    apply total_nonneg. intros x [<-|[]]. unfold spent. cbn [lo_side lo_rem lo_price o]. destruct sd; [apply value_nonneg; lia | lia]. }
  cbn [fst]. replace (m_reserved m + Z.abs (total (spent c) l - m_reserved m)) with (total (spent c) l) in * by lia.
  assert (I2 : cash c (with_id (with_orders m l (total (spent c) l)))).
  { constructor; try (apply I); try assumption. reflexivity. }
  split; [|exact I2]. apply harmless_demand. apply orb_true_iff. right. apply Z.leb_le. apply (provided_free _ _ Hs C I2).
Qed.

Lemma drop_cash c m b o :
  0 < c_scale c -> cash_config c -> cash c m -> NoDup (map lo_id (m_orders m)) -> find (named b) (m_orders m) = Some o ->
  harmless c (cancel_crash c m b) /\ cash c (m_drop c m b).
Proof.
  intros Hs C I Hn Hf. pose proof (take_perm _ _ _ Hf) as P. unfold cancel_crash. rewrite Hf. unfold m_drop.
  set (l := take_out (named b) (m_orders m)) in *.
  pose proof (fine_perm c _ _ P (ca_fine _ _ I)) as F'. assert (F : fine c l) by (intros x Hx; apply F'; right; exact Hx).
  destruct (F' o (or_introl eq_refl)) as [R1 R2]. pose proof C as (K & _ & _ & M & _).
  pose proof (ca_cover _ _ I) as Hc. unfold covered in Hc. rewrite offered_total, (total_perm _ _ _ P), total_cons in Hc.
  pose proof (ca_fees _ _ I) as Hp. unfold provided in Hp. rewrite buy_fees_total, (total_perm _ _ _ P), total_cons, free_eq in Hp by exact K.
  pose proof (ca_sync _ _ I) as Hr. rewrite (total_perm _ _ _ P), total_cons in Hr.
  pose proof (value_nonneg (c_scale c) (lo_rem o) (lo_price o) Hs ltac:(lia) ltac:(lia)) as V.
  assert (0 <= selling o) by (unfold selling; destruct (lo_side o); lia).
  assert (0 <= spent c o) by (unfold spent; destruct (lo_side o); lia).
  assert (0 <= buy_fee c o) by (unfold buy_fee; destruct (lo_side o); [apply fee_le; lia | lia]).
  pose proof (ca_pos _ _ I) as Hpos. rewrite (need_cash c l _ Hs C F Hpos) by lia.
  split.
  - apply harmless_two; apply harmless_demand.
    + rewrite <- (cash_need c m Hs C I). apply Z.eqb_refl.
    + cbn [m_reserved with_orders]. lia.
  - constructor; try (apply I); try assumption.
    + unfold covered, m_pos in *. cbn [m_book m_orders with_orders]. rewrite offered_total. lia.
    + reflexivity.
    + unfold provided, m_free in *. cbn [m_book m_orders m_held m_reserved with_orders]. rewrite buy_fees_total by exact K. lia.
Qed.

Lemma cash_not_due c m : 0 < c_scale c -> cash_config c -> cash c m -> m_due c m = false.
Proof.
  intros Hs (_ & _ & MM & _) I. unfold m_due. rewrite MM. pose proof (ca_pos _ _ I). pose proof (ca_bid _ _ I).
  destruct (Z.ltb_spec 0 (m_pos m)) as [L|]; [|destruct (Z.ltb_spec (m_pos m) 0); [lia | reflexivity]].
  apply Z.leb_gt. rewrite Z.sub_diag, Z.mul_0_r. nia.
Qed.

Lemma update_cash c m ru :
  0 < c_scale c -> cash_config c -> cash c m -> NoDup (map lo_id (m_orders m)) -> fair_data c ru ->
  harmless c (update_crash c m ru) /\ cash c (fst (m_update c m ru)).
Proof.
  intros Hs C I Hn (Q & B & _ & D). pose proof (cash_quote c m ru I Q) as I1. unfold update_crash, m_update. set (m1 := with_quote m ru) in *.
  pose proof (cash_not_due c m1 Hs C I1) as E.
  rewrite E. cbn [fst]. destruct (check_cash c ru m1 Hs C B I1 Hn) as [X Y]. split; [|exact Y].
  apply harmless_two; [|exact X]. unfold in_debug. destruct (c_dbg c); [|apply harmless_none]. apply harmless_demand, D. reflexivity.
Qed.

Lemma market_cash c m sd q uid :
  0 < c_scale c -> cash_config c -> cash c m -> c_scale c <= m_price m sd ->
  covered (fst (m_market c m sd q uid)) -> provided c (fst (m_market c m sd q uid)) ->
  harmless c (market_crash c m sd q) /\ cash c (fst (m_market c m sd q uid)).
Proof.
  intros Hs C I Hp Hc Hf. unfold market_crash. unfold m_market in *.
  destruct (Z.leb_spec q 0); [split; [apply harmless_none | exact I]|].
  destruct (quantity_fault _ _); [split; [apply harmless_none | exact I]|].
  assert (Dv : forall b, harmless c (demand (b || divides c (m_price m sd)) PDivByZero)).
  { intros b. apply harmless_demand. unfold divides. destruct C as (K & _). rewrite K. apply orb_true_r. }
  destruct (m_funded c m sd q); [|split; [apply harmless_two; [apply Dv | apply harmless_none] | apply cash_id; exact I]].
  cbn [fst] in *. pose proof C as (K & _ & _ & _ & T).
  assert (Hc' : total selling (m_orders m) <= m_pos (m_fill c m (taken c m sd q))) by exact Hc.
  pose proof (selling_nonneg c _ (ca_fine _ _ I)) as Hsn.
  assert (Key : harmless c (fill_crash c m (taken c m sd q)) /\ entered c (m_fill c m (taken c m sd q)) /\ 0 <= m_held (m_fill c m (taken c m sd q))).
  { destruct sd.
    - destruct (buy_fill c m q (m_price m Buy) (ct_taker (c_spec c)) Hs C (ca_pos _ _ I) (ca_held _ _ I) (ca_entry _ _ I) ltac:(lia) Hp T)
        as (X1 & X2 & X3 & X4 & X5 & X6). pose proof (ca_held _ _ I).
      pose proof (value_nonneg (c_scale c) q (m_price m Buy) Hs ltac:(lia) ltac:(lia)).
      change (bought q (m_price m Buy) (ct_taker (c_spec c))) with (taken c m Buy q) in *. split; [left; exact X1|]. split; [exact X3 | lia].
    - assert (Hq : q <= m_pos m).
      { destruct (Z.leb_spec q (m_pos m)) as [|L]; [assumption|exfalso].
        assert (E : m_pos (m_fill c m (taken c m Sell q)) = m_pos m - q).
        { unfold m_fill, m_pos, apply_fill. cbn [m_book taken f_side f_qty signed_qty]. destruct (Z.eqb_spec (l_qty (m_book m)) 0); [cbn; lia|].
          pose proof (ca_pos _ _ I). unfold m_pos in *. rewrite sgn_neg by lia. reflexivity. }
        lia. }
      destruct (sell_fill c m q (m_price m Sell) (ct_taker (c_spec c)) Hs C (ca_held _ _ I) (ca_entry _ _ I) ltac:(lia) ltac:(lia) T)
        as (X1 & X2 & X3 & X4 & X5 & X6).
      change (sold q (m_price m Sell) (ct_taker (c_spec c))) with (taken c m Sell q) in *. auto. }
  destruct Key as (Y1 & Y2 & Y3). split.
  - apply harmless_two; [apply Dv|]. apply harmless_two; [apply harmless_demand; lia | exact Y1].
  - apply cash_id. constructor; try assumption; try (apply I). lia.
Qed.

Lemma call_cash c m o :
  0 < c_scale c -> cash_config c -> cash c m -> NoDup (map lo_id (m_orders m)) -> cash_call c m o (fst (m_call c m o)) ->
  harmless c (m_crash c m o) /\ cash c (fst (m_call c m o)).
Proof.
  intros Hs C I Hn (H1 & H2 & H3 & H4).
  assert (H : match o with
              | OpUpdate ru | OpCheck ru => fair_data c ru
              | OpMarket sd _ _ => c_scale c <= m_price m sd /\ covered (fst (m_call c m o)) /\ provided c (fst (m_call c m o))
              | OpLimit _ p _ _ | OpAmend _ _ p _ _ => c_scale c <= p /\ covered (fst (m_call c m o)) /\ provided c (fst (m_call c m o))
              | OpCancel _ => True
              end) by (destruct o; cbn [fair_call priced_call places] in *; auto).
  clear H1 H2 H3 H4. destruct o as [ru|sd q uid|sd p q uid|b|id sd p q uid|ru]; cbn [m_call m_crash fst] in *.
  - destruct (update_cash c m ru Hs C I Hn H) as [X Y]. split; [|exact Y]. apply harmless_two; [|exact X]. destruct H as (_ & _ & -> & _). apply harmless_none.
  - destruct H as (Hp & Hc & Hf). apply market_cash; assumption.
  - destruct H as (Hp & Hc & Hf). unfold limit_crash. unfold m_limit in *. destruct (Z.leb_spec p 0); [lia|]. cbn [orb] in *.
    destruct (Z.leb_spec q 0); [split; [apply harmless_none | exact I]|]. apply submit_cash; assumption.
  - unfold m_cancel. destruct (find (named b) (m_orders m)) as [o|] eqn:E; cbn [fst].
    + exact (drop_cash c m b o Hs C I Hn E).
    + split; [|exact I]. unfold cancel_crash. rewrite E. apply harmless_two; [|apply harmless_none]. apply harmless_demand.
      rewrite <- (cash_need c m Hs C I). apply Z.eqb_refl.
  - destruct H as (Hp & Hc & Hf). unfold amend_crash. unfold m_amend in *. destruct (Z.leb_spec p 0); [lia|]. cbn [orb] in *.
    destruct (Z.leb_spec q 0); [split; [apply harmless_none | exact I]|].
    destruct (find (named (ByOrderId id)) (m_orders m)) as [o|] eqn:E; [|split; [apply harmless_none | exact I]].
    destruct (drop_cash c m _ o Hs C I Hn E) as [X Y].
    destruct (Z.leb_spec (q - lo_filled_qty o) 0); [split; [apply harmless_two; [exact X | apply harmless_none] | exact Y]|].
    destruct (submit_cash c (m_drop c m (ByOrderId id)) sd p (q - lo_filled_qty o) uid Hs C Y Hp ltac:(lia) Hc Hf) as [X2 Y2].
    split; [|exact Y2]. apply harmless_two; assumption.
  - destruct H as (Q & B & Bu & _). destruct (check_cash c ru m Hs C B I Hn) as [X Y]. split; [|exact Y].
    apply harmless_two; [|exact X]. rewrite Bu. apply harmless_none.
Qed.

(** ** Histories *)
Lemma start_cash c : valid_config c -> cash c (m_start c).
Proof.
  intros V. pose proof (vc_start _ V). constructor; unfold m_start, m_pos, covered, provided, m_free; cbn; try lia. intros o [].
Qed.

Lemma submit_result c m sd p q uid : snd (m_submit c m sd p q uid) <> Err (ERisk Liquidate).
Proof.
  unfold m_submit. destruct (quantity_fault _ _); [discriminate|]. destruct (price_fault _ _ _ _); [discriminate|]. cbv zeta.
  repeat (match goal with |- context [if ?b then _ else _] => destruct b end; try discriminate).
Qed.
Lemma never_due c m o : 0 < c_scale c -> cash_config c -> cash c m -> fair_call c o -> snd (m_call c m o) <> Err (ERisk Liquidate).
Proof.
  intros Hs C I F. destruct o as [ru|sd q uid|sd p q uid|b|id sd p q uid|ru]; cbn [m_call]; [| | | | |discriminate].
  - unfold m_update. rewrite (cash_not_due c _ Hs C (cash_quote c m ru I (proj1 F))). discriminate.
  - unfold m_market. destruct (q <=? 0); [discriminate|]. destruct (quantity_fault _ _); [discriminate|]. destruct (m_funded _ _ _ _); discriminate.
  - unfold m_limit. destruct (p <=? 0); [discriminate|]. destruct (q <=? 0); [discriminate|]. apply submit_result.
  - unfold m_cancel. destruct (find _ _); [discriminate|]. destruct b; cbn; [destruct (_ <? _)|]; discriminate.
  - unfold m_amend. destruct (p <=? 0); [discriminate|]. destruct (q <=? 0); [discriminate|]. destruct (find _ _).
    + cbv zeta. destruct (_ <=? 0); [discriminate|]. apply submit_result.
    + cbn. destruct (_ <? _); discriminate.
Qed.

Lemma run_cash c ops : forall e,
  valid_config c -> cash_config c -> reachable c e -> cash c (machine_of e) -> cash_calls c (machine_of e) ops ->
  match run c e ops with
  | Done (e', outs) => cash c (machine_of e') /\ ~ In (Err (ERisk Liquidate)) outs
  | Panic w => c_dbg c = true /\ w = PCloseMarginDebug
  end.
Proof.
  induction ops as [|o ops IH]; intros e V C R I H; cbn [run]; [split; [exact I | intros []]|]. destruct H as [H1 H2].
  pose proof (vc_scale _ V) as Hs. pose proof (reachable_sound c e V R) as S.
  assert (Hn : NoDup (map lo_id (m_orders (machine_of e)))) by exact (inv_nodup _ _ (so_inv _ _ S)).
  destruct (call_cash c _ o Hs C I Hn H1) as [X Y]. pose proof (crash_step c e o V R) as K.
  destruct (step c e o) as [[e1 r]|w] eqn:E; cbn [bind].
  - pose proof (never_due c _ o Hs C I (proj1 H1)) as L. rewrite (machine_step c e o e1 r V R E) in Y, H2, L. cbn [fst snd] in Y, H2, L. specialize (IH e1 V C (reach_step _ _ _ _ _ R E) Y H2).
    destruct (run c e1 ops) as [[e2 rs]|w] eqn:E2; cbn [bind]; [|exact IH].
    destruct IH as [IH1 IH2]. split; [exact IH1|]. intros [Hl|Hl]; [exact (L Hl) | exact (IH2 Hl)].
  - rewrite K in X. destruct X as [X|[D X]]; [discriminate|]. injection X as ->. auto.
Qed.

Lemma cash_history c ops :
  valid_config c -> cash_config c -> c_dbg c = false -> cash_calls c (m_start c) ops ->
  exists e outs, history c ops e outs /\ 0 <= wallet_of e /\ 0 <= position_quantity (ex_pos e) /\
    offered (ex_active e) <= position_quantity (ex_pos e) /\ ~ In (Err (ERisk Liquidate)) outs.
Proof.
  intros V C D H. destruct (init_total c V) as [e0 Hi].
  assert (R : reachable c e0) by (exists [], [], e0; split; [exact Hi | reflexivity]).
  pose proof (machine_init c e0 Hi) as E0. pose proof (start_cash c V) as I0. rewrite <- E0 in I0, H.
  pose proof (run_cash c ops e0 V C R I0 H) as X. destruct (run c e0 ops) as [[e outs]|w] eqn:E; [|destruct X; congruence].
  destruct X as [X XL]. exists e, outs. split; [exists e0; auto|]. pose proof (provided_free c _ (vc_scale _ V) C X) as P. rewrite machine_wallet in P.
  split; [exact P|]. split; [exact (ca_pos _ _ X) | split; [exact (ca_cover _ _ X) | exact XL]].
Qed.

Lemma cash_debug c ops :
  valid_config c -> cash_config c -> cash_calls c (m_start c) ops ->
  exists e0, init c = Done e0 /\ forall w, run c e0 ops = Panic w -> w = PCloseMarginDebug.
Proof.
  intros V C H. destruct (init_total c V) as [e0 Hi]. exists e0. split; [exact Hi|]. intros w E.
  assert (R : reachable c e0) by (exists [], [], e0; split; [exact Hi | reflexivity]).
  pose proof (machine_init c e0 Hi) as E0. pose proof (start_cash c V) as I0. rewrite <- E0 in I0, H.
  pose proof (run_cash c ops e0 V C R I0 H) as X. rewrite E in X. apply X.
Qed.
