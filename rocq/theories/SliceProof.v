(** A market order in parts. *)
From Verif Require Import ProofBase Types Accounting Position OrderBook OrderMargin MarketUpdate Exchange Spec SpecConfig SpecMarket SpecFlow SpecMargin
  SpecView SpecMachine SpecCrash MachineProof CrashProof Inv OrderProof HealthProof SpecSlice.

(** ** Rounding *)
Lemma quot_zero x : Z.quot x 0 = 0.
Proof. destruct x; reflexivity. Qed.
Lemma quot_add x y m : 0 <= x -> 0 <= y -> 0 <= m -> Z.quot x m + Z.quot y m <= Z.quot (x + y) m <= Z.quot x m + Z.quot y m + 1.
Proof.
  intros Hx Hy Hm. destruct (Z.eq_dec m 0) as [->|N]; [rewrite !quot_zero; lia|].
  rewrite !Z.quot_div_nonneg by lia. pose proof (Z.div_mod x m ltac:(lia)). pose proof (Z.div_mod y m ltac:(lia)).
  pose proof (Z.mod_pos_bound x m ltac:(lia)). pose proof (Z.mod_pos_bound y m ltac:(lia)).
  split; [apply Z.div_le_lower_bound; nia|]. assert ((x + y) / m < x / m + y / m + 2); [apply Z.div_lt_upper_bound; nia | lia].
Qed.
Lemma quot_nonneg x m : 0 <= x -> 0 <= m -> 0 <= Z.quot x m.
Proof. intros Hx Hm. destruct (Z.eq_dec m 0) as [->|N]; [rewrite quot_zero; lia | apply Z.quot_pos; lia]. Qed.
Lemma value_nonneg k s q p : 0 <= s -> 0 <= q -> 0 <= p -> 0 <= value k s q p.
Proof. intros. unfold value. destruct k; apply quot_nonneg; nia. Qed.
Lemma value_add k s a b p : 0 <= s -> 0 <= a -> 0 <= b -> 0 <= p ->
  value k s a p + value k s b p <= value k s (a + b) p <= value k s a p + value k s b p + 1.
Proof. intros. unfold value. destruct k; rewrite Z.mul_add_distr_r; apply quot_add; nia. Qed.
(** A share of at most the whole of a value. *)
Lemma share_add k s a b p r : 0 < s -> 0 <= a -> 0 <= b -> 0 <= p -> 0 <= r <= s ->
  let f q := Z.quot (value k s q p * r) s in 0 <= f a /\ 0 <= f b /\ f a + f b <= f (a + b) <= f a + f b + 2.
Proof.
  intros Hs Ha Hb Hp Hr f. pose proof (value_add k s a b p ltac:(lia) Ha Hb Hp) as V.
  pose proof (value_nonneg k s a p ltac:(lia) Ha Hp) as Va. pose proof (value_nonneg k s b p ltac:(lia) Hb Hp) as Vb. unfold f.
  split; [apply quot_nonneg; nia|]. split; [apply quot_nonneg; nia|].
  pose proof (quot_add (value k s a p * r) (value k s b p * r) s ltac:(nia) ltac:(nia) ltac:(lia)) as Q. split.
  - transitivity (Z.quot (value k s a p * r + value k s b p * r) s); [lia | apply Z.quot_le_mono; nia].
  - transitivity (Z.quot ((value k s a p * r + value k s b p * r) + s) s); [apply Z.quot_le_mono; nia|].
    replace (value k s a p * r + value k s b p * r + s) with (value k s a p * r + value k s b p * r + 1 * s) by lia.
    rewrite !Z.quot_div_nonneg in * by nia. rewrite Z.div_add by lia. lia.
Qed.
Lemma gain_add k s a b e p : 0 <= s -> 0 <= a -> 0 <= b -> 0 <= e -> 0 <= p ->
  -1 <= gain k s a e p + gain k s b e p - gain k s (a + b) e p <= 1.
Proof.
  intros Hs Ha Hb He Hp. pose proof (value_add k s a b e Hs Ha Hb He). pose proof (value_add k s a b p Hs Ha Hb Hp). unfold gain. destruct k; lia.
Qed.
Lemma average_nonneg s p0 w0 p1 w1 : 0 < s -> 0 <= p0 -> 0 <= w0 -> 0 <= p1 -> 0 <= w1 -> 0 <= average s p0 w0 p1 w1.
Proof. intros. unfold average. apply quot_nonneg; [|lia]. pose proof (quot_nonneg (p0 * w0) s ltac:(nia) ltac:(lia)). pose proof (quot_nonneg (p1 * w1) s ltac:(nia) ltac:(lia)). nia. Qed.
(** An average put back in counts for no more than what it was made of. *)
Lemma average_back s p0 w0 p1 w1 : 0 < s -> 0 <= p0 -> 0 < w0 -> 0 <= p1 -> 0 < w1 ->
  Z.quot (average s p0 w0 p1 w1 * (w0 + w1)) s <= Z.quot (p0 * w0) s + Z.quot (p1 * w1) s.
Proof.
  intros. unfold average. pose proof (quot_nonneg (p0 * w0) s ltac:(nia) ltac:(lia)). pose proof (quot_nonneg (p1 * w1) s ltac:(nia) ltac:(lia)).
  set (A := Z.quot (p0 * w0) s + Z.quot (p1 * w1) s) in *. assert (0 <= A) by lia.
  pose proof (quot_nonneg (A * s) (w0 + w1) ltac:(nia) ltac:(lia)) as X. rewrite (Z.quot_div_nonneg (A * s)) in * by nia.
  pose proof (Z.mul_div_le (A * s) (w0 + w1) ltac:(lia)). rewrite Z.quot_div_nonneg by nia.
  assert (E : A = A * s / s) by (rewrite Z.div_mul; lia). rewrite E at 2. apply Z.div_le_mono; lia.
Qed.
Lemma average_twice s p0 w p a b : 0 < s -> 0 <= p0 -> 0 < w -> 0 <= p -> 0 < a -> 0 < b ->
  average s (average s p0 w p a) (w + a) p b <= average s p0 w p (a + b).
Proof.
  intros. pose proof (average_back s p0 w p a ltac:(lia) ltac:(lia) ltac:(lia) ltac:(lia) ltac:(lia)) as B.
  pose proof (average_nonneg s p0 w p a ltac:(lia) ltac:(lia) ltac:(lia) ltac:(lia) ltac:(lia)) as N.
  pose proof (quot_add (p * a) (p * b) s ltac:(nia) ltac:(nia) ltac:(lia)) as Q. set (v := average s p0 w p a) in *.
  unfold average. replace (p * (a + b)) with (p * a + p * b) by lia. replace (w + a + b) with (w + (a + b)) by lia.
  apply Z.quot_le_mono; [lia|]. apply Z.mul_le_mono_nonneg_r; lia.
Qed.
Lemma average_same s p a b : 0 < s -> 0 <= p -> 0 < a -> 0 < b -> average s p a p b <= p.
Proof.
  intros. pose proof (quot_add (p * a) (p * b) s ltac:(nia) ltac:(nia) ltac:(lia)) as Q. unfold average.
  transitivity (Z.quot (p * (a + b)) (a + b)); [|rewrite Z.quot_mul; lia].
  pose proof (quot_nonneg (p * a) s ltac:(nia) ltac:(lia)). pose proof (quot_nonneg (p * b) s ltac:(nia) ltac:(lia)).
  apply Z.quot_le_mono; [lia|]. rewrite (Z.quot_div_nonneg (p * a + p * b)) in Q by nia. pose proof (Z.mul_div_le (p * a + p * b) s ltac:(lia)). nia.
Qed.

Lemma sum_pos l : (forall q, In q l -> 0 < q) -> l <> [] -> 0 < sumZ l.
Proof.
  intros H N. destruct l as [|a l]; [contradiction|]. clear N. cbn [sumZ fold_right]. pose proof (H a (or_introl eq_refl)).
  assert (0 <= sumZ l); [|unfold sumZ in *; cbn [fold_right]; lia]. assert (K : forall q, In q l -> 0 < q) by (intros q I; apply H; right; exact I). clear H.
  induction l as [|b l IH]; cbn; [lia|]. pose proof (K b (or_introl eq_refl)). assert (0 <= sumZ l) by (apply IH; intros q I; apply K; right; exact I). unfold sumZ in *. lia.
Qed.

(** ** The ledger *)
Section Booked.
Variables (k : kind) (s p r : Z) (sd : side).
Hypotheses (Hs : 0 < s) (Hp : 0 < p) (Hr : 0 <= r <= s).
Let sg : Z := match sd with Buy => 1 | Sell => -1 end.
Let mk (q : Z) : fill := {| f_side := sd; f_qty := q; f_price := p; f_rate := r |}.
Let fe (q : Z) : Z := fee k s (mk q).
Let ap := apply_fill k s.

Lemma sg_cases : sg = 1 \/ sg = -1.
Proof. unfold sg. destruct sd; auto. Qed.
Lemma mk_signed q : signed_qty (mk q) = sg * q.
Proof. unfold signed_qty, sg. cbn [mk f_side f_qty]. destruct sd; lia. Qed.
Lemma fe_add a b : 0 <= a -> 0 <= b -> 0 <= fe a /\ 0 <= fe b /\ fe a + fe b <= fe (a + b) <= fe a + fe b + 2.
Proof. intros Ha Hb. exact (share_add k s a b p r Hs Ha Hb ltac:(lia) Hr). Qed.

Lemma ap_flat en du ca pa q : ap {| l_qty := 0; l_entry := en; l_due := du; l_cash := ca; l_paid := pa |} (mk q) =
  {| l_qty := sg * q; l_entry := p; l_due := fe q; l_cash := ca; l_paid := pa |}.
Proof. unfold ap, apply_fill. cbn [l_qty Z.eqb l_cash l_paid]. rewrite mk_signed. reflexivity. Qed.
Lemma ap_more h en du ca pa q : 0 < h -> 0 < q -> ap {| l_qty := sg * h; l_entry := en; l_due := du; l_cash := ca; l_paid := pa |} (mk q) =
  {| l_qty := sg * (h + q); l_entry := average s en h p q; l_due := du + fe q; l_cash := ca; l_paid := pa |}.
Proof.
  intros Hh Hq. unfold ap, apply_fill. cbn [l_qty l_entry l_due l_cash l_paid]. rewrite mk_signed. destruct sg_cases as [E|E]; rewrite E;
  (rewrite (proj2 (Z.eqb_neq _ 0)) by lia; rewrite (proj2 (Z.eqb_eq _ _)) by lia; change (f_price (mk q)) with p; change (f_qty (mk q)) with q;
   f_equal; [lia | f_equal; lia]).
Qed.
Let G (en q : Z) : Z := - sg * gain k s q en p.
Lemma ap_less h en du ca pa q : 0 < q < h -> 0 <= du -> ap {| l_qty := - sg * h; l_entry := en; l_due := du; l_cash := ca; l_paid := pa |} (mk q) =
  {| l_qty := - sg * (h - q); l_entry := en; l_due := 0; l_cash := ca + G en q - (du + fe q); l_paid := pa + (du + fe q) |}.
Proof.
  intros Hq Hd. pose proof (proj1 (fe_add q 0 ltac:(lia) ltac:(lia))) as F. unfold ap, apply_fill. cbn [l_qty l_entry l_due l_cash l_paid]. rewrite mk_signed. unfold G. fold (fe q). destruct sg_cases as [E|E]; rewrite E;
  (rewrite (proj2 (Z.eqb_neq _ 0)) by lia; rewrite (proj2 (Z.eqb_neq _ _)) by lia; change (f_price (mk q)) with p; change (f_qty (mk q)) with q;
   rewrite (proj2 (Z.eqb_neq _ 0)) by lia; rewrite (proj2 (Z.eqb_eq (Z.sgn _) _)) by lia; rewrite Z.max_l, Z.min_r by lia;
   rewrite (Z.min_r (Z.abs _) q) by lia; f_equal; lia).
Qed.
Lemma ap_close h en du ca pa : 0 < h -> 0 <= du -> ap {| l_qty := - sg * h; l_entry := en; l_due := du; l_cash := ca; l_paid := pa |} (mk h) =
  {| l_qty := 0; l_entry := 0; l_due := 0; l_cash := ca + G en h - (du + fe h); l_paid := pa + (du + fe h) |}.
Proof.
  intros Hq Hd. pose proof (proj1 (fe_add h 0 ltac:(lia) ltac:(lia))) as F. unfold ap, apply_fill. cbn [l_qty l_entry l_due l_cash l_paid]. rewrite mk_signed. unfold G. fold (fe h). destruct sg_cases as [E|E]; rewrite E;
  (rewrite (proj2 (Z.eqb_neq _ 0)) by lia; rewrite (proj2 (Z.eqb_neq _ _)) by lia; change (f_price (mk h)) with p; change (f_qty (mk h)) with h;
   rewrite (proj2 (Z.eqb_eq _ 0)) by lia; rewrite (proj2 (Z.eqb_neq (Z.sgn _) _)) by lia; rewrite Z.max_l by lia;
   rewrite (Z.min_r (Z.abs _) h) by lia; f_equal; lia).
Qed.
Lemma ap_flip h en du ca pa q : 0 < h < q -> 0 <= du -> ap {| l_qty := - sg * h; l_entry := en; l_due := du; l_cash := ca; l_paid := pa |} (mk q) =
  {| l_qty := sg * (q - h); l_entry := p; l_due := 0; l_cash := ca + G en h - (du + fe q); l_paid := pa + (du + fe q) |}.
Proof.
  intros Hq Hd. pose proof (proj1 (fe_add q 0 ltac:(lia) ltac:(lia))) as F. unfold ap, apply_fill. cbn [l_qty l_entry l_due l_cash l_paid]. rewrite mk_signed. unfold G. fold (fe q). destruct sg_cases as [E|E]; rewrite E;
  (rewrite (proj2 (Z.eqb_neq _ 0)) by lia; rewrite (proj2 (Z.eqb_neq _ _)) by lia; change (f_price (mk q)) with p; change (f_qty (mk q)) with q;
   rewrite (proj2 (Z.eqb_neq _ 0)) by lia; rewrite (proj2 (Z.eqb_neq (Z.sgn _) _)) by lia; rewrite Z.max_l by lia;
   rewrite (Z.min_l (Z.abs _) q) by lia; rewrite ?(ltac:(lia) : Z.abs (- (1) * h) = h), ?(ltac:(lia) : Z.abs (- (-1) * h) = h); f_equal; lia).
Qed.

Definition sane (l : ledger) : Prop := 0 <= l_entry l /\ 0 <= l_due l /\ (l_qty l = 0 -> l_due l = 0).
(** [x] in more parts than [y]. *)
Definition parted (n : Z) (x y : ledger) : Prop :=
  l_qty x = l_qty y /\ l_entry x <= l_entry y /\ - n <= (l_cash x + l_paid x) - (l_cash y + l_paid y) <= n /\
  l_paid x + l_due x <= l_paid y + l_due y <= l_paid x + l_due x + 2 * n.
Lemma parted_trans n n' x y z : parted n x y -> parted n' y z -> parted (n + n') x z.
Proof. unfold parted. intuition lia. Qed.

Lemma which_side n : n = 0 \/ (exists h, 0 < h /\ n = sg * h) \/ exists h, 0 < h /\ n = - sg * h.
Proof.
  destruct (Z.eq_dec n 0) as [|N]; [auto|]. right. destruct sg_cases as [E|E]; rewrite E; destruct (Z.lt_ge_cases 0 n).
  - left. exists n. lia.
  - right. exists (- n). lia.
  - right. exists n. lia.
  - left. exists (- n). lia.
Qed.
Lemma sane_next l q : sane l -> 0 < q -> sane (ap l (mk q)).
Proof.
  intros (E & D & F) Hq. destruct l as [n en du ca pa]; cbn [l_qty l_entry l_due] in *. pose proof (proj1 (fe_add q 0 ltac:(lia) ltac:(lia))) as Fq.
  destruct (which_side n) as [->|[(h & Hh & ->)|(h & Hh & ->)]].
  - rewrite ap_flat. unfold sane; cbn [l_qty l_entry l_due]. destruct sg_cases as [S|S]; rewrite S; lia.
  - rewrite ap_more by lia. unfold sane; cbn [l_qty l_entry l_due]. pose proof (average_nonneg s en h p q ltac:(lia) E ltac:(lia) ltac:(lia) ltac:(lia)). destruct sg_cases as [S|S]; rewrite S; lia.
  - destruct (Z.lt_trichotomy q h) as [|[->|]]; [rewrite ap_less by lia | rewrite ap_close by lia | rewrite ap_flip by lia]; unfold sane; cbn [l_qty l_entry l_due]; lia.
Qed.
Lemma G_add en a b : 0 <= en -> 0 <= a -> 0 <= b -> -1 <= G en a + G en b - G en (a + b) <= 1.
Proof. intros He Ha Hb. pose proof (gain_add k s a b en p ltac:(lia) Ha Hb He ltac:(lia)). unfold G. destruct sg_cases as [S|S]; rewrite S; lia. Qed.
Lemma two_parts l a b : sane l -> 0 < a -> 0 < b -> parted 1 (ap (ap l (mk a)) (mk b)) (ap l (mk (a + b))).
Proof.
  intros (E & D & F) Ha Hb. destruct l as [n en du ca pa]; cbn [l_qty l_entry l_due] in *. destruct (fe_add a b ltac:(lia) ltac:(lia)) as (Fa & Fb & Fab).
  destruct (which_side n) as [->|[(h & Hh & ->)|(h & Hh & ->)]].
  - rewrite !ap_flat, ap_more by lia. pose proof (average_same s p a b Hs ltac:(lia) Ha Hb). unfold parted; cbn [l_qty l_entry l_due l_cash l_paid]. lia.
  - rewrite !ap_more by lia. pose proof (average_twice s en h p a b Hs E Hh ltac:(lia) Ha Hb). unfold parted; cbn [l_qty l_entry l_due l_cash l_paid].
    split; [f_equal; lia | lia].
  - destruct (Z.lt_trichotomy a h) as [La|[->|La]].
    + rewrite (ap_less h en du ca pa a) by lia. destruct (Z.lt_trichotomy (a + b) h) as [L|[Eq|L]].
      * rewrite !ap_less by lia. pose proof (G_add en a b E ltac:(lia) ltac:(lia)). unfold parted; cbn [l_qty l_entry l_due l_cash l_paid]. split; [f_equal; lia | lia].
      * replace (h - a) with b by lia. rewrite ap_close, Eq, ap_close by lia. pose proof (G_add en a b E ltac:(lia) ltac:(lia)) as X. rewrite Eq in X, Fab. unfold parted; cbn [l_qty l_entry l_due l_cash l_paid]. lia.
      * rewrite !ap_flip by lia. pose proof (G_add en a (h - a) E ltac:(lia) ltac:(lia)) as X. replace (a + (h - a)) with h in X by lia. unfold parted; cbn [l_qty l_entry l_due l_cash l_paid]. split; [f_equal; lia | lia].
    + rewrite ap_close, ap_flat, ap_flip by lia. unfold parted; cbn [l_qty l_entry l_due l_cash l_paid]. split; [f_equal; lia | lia].
    + rewrite ap_flip, ap_more, ap_flip by lia. pose proof (average_same s p (a - h) b Hs ltac:(lia) ltac:(lia) Hb). unfold parted; cbn [l_qty l_entry l_due l_cash l_paid]. split; [f_equal; lia | lia].
Qed.
Lemma many_parts : forall l lg, sane lg -> (forall q, In q l -> 0 < q) -> l <> [] ->
  parted (extra l) (fold_left ap (map mk l) lg) (ap lg (mk (sumZ l))).
Proof.
  induction l as [|a l IH]; intros lg S H N; [contradiction|]. pose proof (H a (or_introl eq_refl)) as Ha.
  assert (K : forall q, In q l -> 0 < q) by (intros q I; apply H; right; exact I). destruct l as [|b l].
  - cbn [map fold_left]. replace (sumZ [a]) with a by (cbn; lia). unfold parted, extra. cbn [length]. lia.
  - cbn [map fold_left]. change (sumZ (a :: b :: l)) with (a + sumZ (b :: l)).
    pose proof (IH (ap lg (mk a)) (sane_next _ _ S Ha) K ltac:(discriminate)) as P. cbn [map fold_left] in P.
    pose proof (two_parts lg a (sumZ (b :: l)) S Ha (sum_pos _ K ltac:(discriminate))) as Q. pose proof (parted_trans _ _ _ _ _ P Q) as T.
    replace (extra (a :: b :: l)) with (extra (b :: l) + 1) by (unfold extra; cbn [length]; lia). exact T.
Qed.
End Booked.
