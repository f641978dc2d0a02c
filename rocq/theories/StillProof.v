(** While the market stands still nothing can be won. *)
From Verif Require Import ProofBase Inv Position MarketUpdate Exchange Spec SpecConfig SpecMarket SpecFlow SpecMachine
  OrderProof HealthProof TotalProof TradeFacts MachineProof SpecStill.

Lemma average_still s p n q : 0 < s -> 0 < n -> 0 < q -> (s | n) -> (s | q) -> average s p n p q = p.
Proof.
  intros Hs Hn Hq [a ->] [b ->]. unfold average. rewrite !Z.mul_assoc, !Z.quot_mul by lia.
  replace ((p * a + p * b) * s) with (p * (a * s + b * s)) by ring. apply Z.quot_mul. nia.
Qed.
Lemma gain_still k s q bid ask : 0 < s -> 0 <= q -> 0 < bid <= ask -> gain k s q ask bid <= 0 /\ 0 <= gain k s q bid ask.
Proof.
  intros Hs Hq Hp. unfold gain, value. destruct k.
  - pose proof (Z.quot_le_mono (q * bid) (q * ask) s Hs ltac:(nia)). lia.
  - pose proof (Z.quot_le_compat_l (q * s) bid ask ltac:(nia) ltac:(lia)). lia.
Qed.
Lemma gain_same k s q p : gain k s q p p = 0. Proof. destruct k; unfold gain; lia. Qed.

(** The account statement of an account whose position was entered at the quote. *)
Definition booked (s bid ask g h : Z) (l : ledger) : Prop :=
  (s | l_qty l) /\ (0 < l_qty l -> l_entry l = ask /\ 0 < ask) /\ (l_qty l < 0 -> l_entry l = bid /\ 0 < bid) /\ l_cash l + l_paid l <= g /\
  (bid = ask -> l_cash l + l_paid l = g) /\ h <= l_paid l.

Lemma fill_still k s bid ask g h l f : 0 < s -> bid <= ask -> booked s bid ask g h l -> 0 < f_qty f -> (s | f_qty f) ->
  f_price f = match f_side f with Buy => ask | Sell => bid end -> 0 < f_price f -> booked s bid ask g h (apply_fill k s l f).
Proof.
  intros Hs Hb (Hd & Hl & Hsh & Hg & Hge & Hh) Hq Hdq Hp Hp0.
  assert (Dx : (s | signed_qty f)) by (unfold signed_qty; destruct (f_side f); [exact Hdq | apply Z.divide_opp_r, Hdq]).
  assert (Dr : (s | l_qty l + signed_qty f)) by (apply Z.divide_add_r; assumption).
  unfold apply_fill. destruct (Z.eqb_spec (l_qty l) 0) as [E|E].
  { unfold booked, signed_qty in *. cbn [l_qty l_entry l_cash l_paid]. rewrite E in *. split; [exact Dx|]. destruct (f_side f); repeat split; intros; try lia; auto. }
  destruct (Z.eqb_spec (Z.sgn (l_qty l)) (Z.sgn (signed_qty f))) as [S|S].
  { unfold booked. cbn [l_qty l_entry l_cash l_paid]. split; [exact Dr|].
    assert (A : Z.abs (l_qty l) > 0) by lia. assert (DA : (s | Z.abs (l_qty l))) by (apply Z.divide_abs_r, Hd).
    unfold signed_qty in *. destruct (f_side f).
    - destruct (Hl ltac:(lia)) as [-> HA]. rewrite Hp, average_still by (assumption || lia). repeat split; intros; try lia; auto.
    - destruct (Hsh ltac:(lia)) as [-> HA]. rewrite Hp, average_still by (assumption || lia). repeat split; intros; try lia; auto. }
  unfold booked. cbn [l_qty l_entry l_cash l_paid]. split; [exact Dr|]. set (q := Z.min (Z.abs (l_qty l)) (f_qty f)).
  assert (Q0 : 0 <= q) by (subst q; lia).
  assert (P : Z.sgn (l_qty l) * gain k s q (l_entry l) (f_price f) <= 0 /\ (bid = ask -> Z.sgn (l_qty l) * gain k s q (l_entry l) (f_price f) = 0)).
  { unfold signed_qty in *. destruct (f_side f).
    - destruct (Hsh ltac:(lia)) as [-> HA]. rewrite Hp. replace (Z.sgn (l_qty l)) with (-1) by lia. pose proof (gain_still k s q bid ask Hs Q0 ltac:(lia)).
      split; [lia|]. intros <-. rewrite gain_same. reflexivity.
    - destruct (Hl ltac:(lia)) as [-> HA]. rewrite Hp. replace (Z.sgn (l_qty l)) with 1 by lia. pose proof (gain_still k s q bid ask Hs Q0 ltac:(lia)).
      split; [lia|]. intros <-. rewrite gain_same. reflexivity. }
  destruct P as [P PE]. unfold signed_qty in *.
  assert (N : forall x y : Z, 0 < x -> 0 < y -> Z.sgn x = Z.sgn y) by (intros; lia).
  split; [|split; [|split; [lia | split; [intros B; specialize (PE B); specialize (Hge B); lia | lia]]]]; intros R.
  - destruct (Z.eqb_spec (l_qty l + match f_side f with Buy => f_qty f | Sell => - f_qty f end) 0); [lia|].
    destruct (Z.eqb_spec (Z.sgn (l_qty l + match f_side f with Buy => f_qty f | Sell => - f_qty f end)) (Z.sgn (l_qty l))); [apply Hl; lia|].
    destruct (f_side f); [split; lia | lia].
  - destruct (Z.eqb_spec (l_qty l + match f_side f with Buy => f_qty f | Sell => - f_qty f end) 0); [lia|].
    destruct (Z.eqb_spec (Z.sgn (l_qty l + match f_side f with Buy => f_qty f | Sell => - f_qty f end)) (Z.sgn (l_qty l))); [apply Hsh; lia|].
    destruct (f_side f); [lia | split; lia].
Qed.

(** Every call of the user but a market order leaves the statement and the quote alone. *)
Definition keeps (m m' : machine) : Prop := m_book m' = m_book m /\ m_bid m' = m_bid m /\ m_ask m' = m_ask m.
Lemma submit_keeps c m sd p q uid : keeps m (fst (m_submit c m sd p q uid)).
Proof. unfold m_submit. destruct (quantity_fault _ _); [repeat split|]. destruct (price_fault _ _ _ _); [repeat split|]. repeat match goal with |- context [if ?b then _ else _] => destruct b end; repeat split. Qed.
Lemma entry_keeps c m o : match o with OpLimit _ _ _ _ | OpCancel _ | OpAmend _ _ _ _ _ => True | _ => False end -> keeps m (fst (m_call c m o)).
Proof.
  intros O. destruct o; try contradiction; cbn [m_call].
  - unfold m_limit. destruct (_ <=? 0); [repeat split|]. destruct (_ <=? 0); [repeat split|]. apply submit_keeps.
  - unfold m_cancel. destruct (find _ _); repeat split.
  - unfold m_amend. destruct (_ <=? 0); [repeat split|]. destruct (_ <=? 0); [repeat split|]. destruct (find _ _) as [x|]; [|repeat split].
    destruct (_ <=? 0); [repeat split|]. match goal with |- keeps _ (fst (m_submit c ?m1 ?a ?b ?d ?f)) => pose proof (submit_keeps c m1 a b d f) as K end.
    destruct K as (K1 & K2 & K3). split; [rewrite K1; reflexivity|]. split; [rewrite K2; reflexivity | rewrite K3; reflexivity].
Qed.

Lemma still_step c e o e' r g h : valid_config c -> reachable c e -> own_call c o -> step c e o = Done (e', r) -> ms_bid (ex_ms e) <= ms_ask (ex_ms e) ->
  booked (c_scale c) (ms_bid (ex_ms e)) (ms_ask (ex_ms e)) g h (statement_of e) ->
  booked (c_scale c) (ms_bid (ex_ms e)) (ms_ask (ex_ms e)) g h (statement_of e') /\ ms_bid (ex_ms e') = ms_bid (ex_ms e) /\ ms_ask (ex_ms e') = ms_ask (ex_ms e).
Proof.
  intros V R O H Hb B. pose proof (machine_step _ _ _ _ _ V R H) as M.
  assert (K : (exists f sd q uid, o = OpMarket sd q uid /\ r = Ok (OutMarket f)) \/ keeps (machine_of e) (machine_of e')).
  { destruct o as [| sd q uid | | | |]; cbn in O; try contradiction.
    - cbn [m_call] in M. unfold m_market in M. pose proof (f_equal fst M) as M1. pose proof (f_equal snd M) as M2. clear M. cbv zeta in M1, M2.
      destruct (q <=? 0); [right; cbn [fst] in M1; rewrite <- M1; repeat split|].
      destruct (quantity_fault _ _); [right; cbn [fst] in M1; rewrite <- M1; repeat split|].
      destruct (m_funded _ _ _ _); cbn [fst snd] in M1, M2; [left; rewrite <- M2; eauto 8|]. right. rewrite <- M1. repeat split.
    - right. match type of M with m_call _ _ ?o = _ => pose proof (entry_keeps c (machine_of e) o I) as K end. rewrite M in K. exact K.
    - right. match type of M with m_call _ _ ?o = _ => pose proof (entry_keeps c (machine_of e) o I) as K end. rewrite M in K. exact K.
    - right. match type of M with m_call _ _ ?o = _ => pose proof (entry_keeps c (machine_of e) o I) as K end. rewrite M in K. exact K. }
  destruct K as [(f & sd & q & uid & -> & ->)|(K1 & K2 & K3)].
  - destruct (market_filled _ _ _ _ _ _ _ V R H) as (_ & Hp & _ & S & _ & _ & Q & _). rewrite Q. split; [|split; reflexivity]. rewrite S.
    assert (Hq : 0 < q) by (cbn [step] in H; unfold market_new in H; destruct (Z.leb_spec q 0); [discriminate|lia]).
    apply fill_still; cbn [f_qty f_price f_side]; try assumption; [apply (vc_scale _ V) | destruct sd; reflexivity].
  - cbn [machine_of m_book m_bid m_ask] in *. rewrite K1. split; [exact B|]. split; assumption.
Qed.
Lemma still_run c ops : forall e e' outs g h, valid_config c -> reachable c e -> own_calls c ops -> run c e ops = Done (e', outs) -> ms_bid (ex_ms e) <= ms_ask (ex_ms e) ->
  booked (c_scale c) (ms_bid (ex_ms e)) (ms_ask (ex_ms e)) g h (statement_of e) ->
  booked (c_scale c) (ms_bid (ex_ms e)) (ms_ask (ex_ms e)) g h (statement_of e') /\ ms_bid (ex_ms e') = ms_bid (ex_ms e) /\ ms_ask (ex_ms e') = ms_ask (ex_ms e) /\ reachable c e'.
Proof.
  induction ops as [|o ops IH]; intros e e' outs g h V R O H Hb B; cbn [run] in H; [injection H as <- <-; auto 6|].
  apply bind_done in H as [[e1 r] [H1 H]]. apply bind_done in H as [[e2 rs] [H2 H]]. injection H as <- <-.
  destruct (still_step c e o e1 r g h V R (O o (or_introl eq_refl)) H1 Hb B) as (B1 & Q1 & Q2).
  pose proof (IH e1 e2 rs g h V (reach_step _ _ _ _ _ R H1) (fun x X => O x (or_intror X)) H2) as Y. rewrite Q1, Q2 in Y. exact (Y Hb B1).
Qed.

Lemma still_no_profit c e ops e' outs : valid_config c -> reachable c e -> ex_pos e = Neutral -> ms_bid (ex_ms e) <= ms_ask (ex_ms e) ->
  own_calls c ops -> run c e ops = Done (e', outs) ->
  let bid := ms_bid (ex_ms e) in let ask := ms_ask (ex_ms e) in
  at_quote e e' /\ gross e' <= gross e /\ (0 < bid -> gross e' + open_profit c (ex_pos e') bid ask <= gross e) /\
  (bid = ask -> gross e' = gross e) /\ wealth_of e' <= wealth_of e.
Proof.
  intros V R P Hb O H bid ask. subst bid ask.
  assert (B0 : booked (c_scale c) (ms_bid (ex_ms e)) (ms_ask (ex_ms e)) (gross e) (fees_paid e) (statement_of e)).
  { unfold booked, statement_of, gross. rewrite P. cbn. split; [apply Z.divide_0_r|]. repeat split; intros; lia. }
  destruct (still_run c ops e e' outs _ _ V R O H Hb B0) as ((_ & BL & BS & BG & BE & BH) & Q1 & Q2 & R').
  pose proof (inv_pos _ _ (reachable_inv _ _ (vc_max _ V) R')) as Hpo. unfold statement_of in *. cbn [l_qty l_entry l_cash l_paid] in *. fold (gross e') in *.
  unfold at_quote, open_profit. pose proof (vc_scale _ V) as Hs.
  destruct (ex_pos e') as [|i|i]; cbn in *.
  - split; [exact I|]. split; [exact BG|]. split; [intros; lia|]. split; [exact BE | unfold gross in BG; lia].
  - destruct (BL ltac:(lia)) as [-> HA]. split; [reflexivity|]. split; [exact BG|]. split; [|split; [exact BE | unfold gross in BG; lia]]. intros B1.
    pose proof (gain_still (c_kind c) (c_scale c) (pi_qty i) (ms_bid (ex_ms e)) (ms_ask (ex_ms e)) Hs ltac:(lia) ltac:(lia)). lia.
  - destruct (BS ltac:(lia)) as [-> HA]. split; [reflexivity|]. split; [exact BG|]. split; [|split; [exact BE | unfold gross in BG; lia]]. intros B1.
    pose proof (gain_still (c_kind c) (c_scale c) (pi_qty i) (ms_bid (ex_ms e)) (ms_ask (ex_ms e)) Hs ltac:(lia) ltac:(lia)). lia.
Qed.

(** ** Fees of an order in pieces *)
Lemma quot_pieces a b s : 0 < s -> 0 <= a -> 0 <= b -> Z.quot a s + Z.quot b s <= Z.quot (a + b) s <= Z.quot a s + Z.quot b s + 1.
Proof.
  intros. rewrite !Z.quot_div_nonneg by lia. pose proof (Z.div_mod a s ltac:(lia)). pose proof (Z.div_mod b s ltac:(lia)). pose proof (Z.mod_pos_bound a s ltac:(lia)). pose proof (Z.mod_pos_bound b s ltac:(lia)).
  split; [apply Z.div_le_lower_bound | apply Z.lt_succ_r, Z.div_lt_upper_bound]; nia.
Qed.
Lemma value_pieces k s p a b : 0 < s -> 0 < p -> 0 <= a -> 0 <= b -> value k s a p + value k s b p <= value k s (a + b) p <= value k s a p + value k s b p + 1.
Proof. intros. unfold value. destruct k; rewrite Z.mul_add_distr_r; apply quot_pieces; nia. Qed.
Lemma value_pos k s p a : 0 < s -> 0 < p -> 0 <= a -> 0 <= value k s a p.
Proof. intros. unfold value. destruct k; apply Z.quot_pos; nia. Qed.
Lemma cost_pieces k s p r a b : 0 < s -> 0 < p -> 0 <= r <= s -> 0 <= a -> 0 <= b -> cost k s p r a + cost k s p r b <= cost k s p r (a + b) <= cost k s p r a + cost k s p r b + 2.
Proof.
  intros Hs Hp Hr Ha Hb. unfold cost, fee. cbn [f_qty f_price f_rate]. pose proof (value_pieces k s p a b Hs Hp Ha Hb) as V. pose proof (value_pos k s p a Hs Hp Ha) as VA. pose proof (value_pos k s p b Hs Hp Hb) as VB.
  set (v := value k s a p) in *. set (w := value k s b p) in *. set (x := value k s (a + b) p) in *.
  pose proof (quot_pieces (v * r) (w * r) s Hs ltac:(nia) ltac:(nia)) as Q1. 
  pose proof (quot_pieces (v * r + w * r) s s Hs ltac:(nia) ltac:(nia)) as Q2. rewrite (Z.quot_same s) in Q2 by lia.
  pose proof (Z.quot_le_mono (v * r + w * r) (x * r) s Hs ltac:(nia)) as L.
  assert (U : Z.quot (x * r) s <= Z.quot (v * r + w * r + s) s) by (apply Z.quot_le_mono; nia).
  assert (E : Z.quot (v * r + w * r + s) s = Z.quot (v * r + w * r) s + 1).
  { rewrite !Z.quot_div_nonneg by nia. replace (v * r + w * r + s) with (v * r + w * r + 1 * s) by ring. rewrite Z.div_add by lia. reflexivity. }
  lia.
Qed.
Lemma costs_pieces k s p r l : 0 < s -> 0 < p -> 0 <= r <= s -> (forall q, In q l -> 0 <= q) -> l <> [] ->
  total (map (cost k s p r) l) <= cost k s p r (total l) <= total (map (cost k s p r) l) + 2 * (Z.of_nat (length l) - 1).
Proof.
  intros Hs Hp Hr. induction l as [|a l IH]; intros Hl Hn; [congruence|]. destruct l as [|b l].
  - cbn [map total fold_right length]. rewrite !Z.add_0_r. lia.
  - assert (Hl' : forall q, In q (b :: l) -> 0 <= q) by (intros q Q; apply Hl; right; exact Q). specialize (IH Hl' ltac:(discriminate)).
    assert (T0 : 0 <= total (b :: l)) by (clear IH Hn Hl; induction (b :: l) as [|y m IHm]; cbn [total fold_right]; [lia|]; fold (total m); pose proof (Hl' y (or_introl eq_refl)); specialize (IHm (fun q Q => Hl' q (or_intror Q))); lia).
    pose proof (cost_pieces k s p r a (total (b :: l)) Hs Hp Hr (Hl a (or_introl eq_refl)) T0) as C.
    change (total (a :: b :: l)) with (a + total (b :: l)). change (total (map (cost k s p r) (a :: b :: l))) with (cost k s p r a + total (map (cost k s p r) (b :: l))).
    change (length (a :: b :: l)) with (S (length (b :: l))). lia.
Qed.
Lemma cost_free k s p r q : 0 < s -> 0 < p -> 0 <= r -> 0 <= q -> (cost k s p r q = 0 <-> value k s q p * r < s).
Proof.
  intros Hs Hp Hr Hq. unfold cost, fee. cbn [f_qty f_price f_rate]. pose proof (value_pos k s p q Hs Hp Hq). split; intros H1.
  - apply Z.quot_small_iff in H1; lia.
  - apply Z.quot_small. nia.
Qed.
