(** A taker account never panics. *)
From Verif Require Import ProofBase BookLemmas Inv Spec SpecBook SpecRules SpecMargin SpecConfig SpecMarket SpecPanic SpecFlow SpecMachine SpecCrash
  LedgerProof MarginProof OrderProof SoundProof SyncProof HealthProof MachineProof CrashProof SpecCash CashProof SpecTaker.

Record taker (c : config) (m : machine) : Prop := {
  tk_orders : m_orders m = [];
  tk_reserved : m_reserved m = 0;
  tk_whole : (c_scale c | m_pos m);
  tk_entry : m_pos m <> 0 -> weighty c (l_entry (m_book m));
  tk_able : tradable c (m_pos m);
  tk_both : 0 < m_bid m <-> 0 < m_ask m;
  tk_quoted : m_pos m <> 0 -> 0 < m_bid m
}.

Lemma value_more k s q p : 0 < s -> 0 < p -> s <= q -> value k s s p <= value k s q p.
Proof. intros Hs Hp Hq. destruct k; cbn [value]; apply Z.quot_le_mono; nia. Qed.
Lemma margin_pos c q p : 0 < c_scale c -> 0 <= ct_imr (c_spec c) -> weighty c p -> c_scale c <= q -> 0 < margin_at c q p.
Proof.
  intros Hs Hi [Hp Hm] Hq. unfold margin_at in *. eapply Z.lt_le_trans; [exact Hm|]. apply Z.quot_le_mono; [assumption|].
  apply Z.mul_le_mono_nonneg_r; [assumption|]. apply value_more; assumption.
Qed.
Lemma weighty_between c p r a : 0 < c_scale c -> 0 <= ct_imr (c_spec c) -> weighty c p -> weighty c r -> Z.min p r <= a <= Z.max p r -> weighty c a.
Proof.
  intros Hs Hi [Hp1 Hp2] [Hr1 Hr2] Ha. split; [lia|]. unfold margin_at in *.
  assert (K : value (c_kind c) (c_scale c) (c_scale c) p <= value (c_kind c) (c_scale c) (c_scale c) a \/
              value (c_kind c) (c_scale c) (c_scale c) r <= value (c_kind c) (c_scale c) (c_scale c) a).
  { destruct (c_kind c); cbn [value].
    - assert (p <= a \/ r <= a) as [L|L] by lia; [left | right]; (apply Z.quot_le_mono; nia).
    - assert (a <= p \/ a <= r) as [L|L] by lia; [left | right]; (apply Z.quot_le_compat_l; nia). }
  destruct K as [K|K]; [eapply Z.lt_le_trans; [exact Hp2|] | eapply Z.lt_le_trans; [exact Hr2|]];
    (apply Z.quot_le_mono; [assumption | apply Z.mul_le_mono_nonneg_r; assumption]).
Qed.
Lemma average_whole s p n r q : 0 < s -> 0 < p -> 0 < r -> 0 < n -> 0 < q -> (s | n) -> (s | q) ->
  Z.min p r <= average s p n r q <= Z.max p r.
Proof.
  intros Hs Hp Hr Hn Hq [a ->] [b ->]. unfold average.
  rewrite !Z.mul_assoc, !Z.quot_mul by lia.
  rewrite <- Z.mul_add_distr_r.
  rewrite Z.quot_mul_cancel_r by nia. rewrite Z.quot_div_nonneg by nia.
  split; [apply Z.div_le_lower_bound | apply Z.div_le_upper_bound]; nia.
Qed.
Lemma whole_ge s q : 0 < s -> 0 < q -> (s | q) -> s <= q.
Proof. intros. apply Z.divide_pos_le; assumption. Qed.

Lemma pos_after c m f : m_pos (m_fill c m f) = m_pos m + signed_qty f.
Proof.
  unfold m_fill, m_pos, apply_fill. cbn [m_book]. destruct (Z.eqb_spec (l_qty (m_book m)) 0) as [E|]; [rewrite E; reflexivity|].
  destruct (_ =? _); reflexivity.
Qed.

(** One execution that does not flip. *)
Lemma taker_fill c m sd q :
  0 < c_scale c -> 0 <= ct_imr (c_spec c) -> (c_scale c | m_pos m) -> (m_pos m <> 0 -> weighty c (l_entry (m_book m))) ->
  0 < q -> (c_scale c | q) -> 0 < m_price m sd -> (m_pos m = 0 \/ Z.sgn (m_pos m) = Z.sgn (signed_qty (taken c m sd q)) -> weighty c (m_price m sd)) ->
  no_flip (m_pos m) sd q ->
  harmless c (take_crash c m sd q) /\ (c_scale c | m_pos m + signed_qty (taken c m sd q)) /\
  (m_pos m + signed_qty (taken c m sd q) <> 0 -> weighty c (l_entry (m_book (m_fill c m (taken c m sd q))))).
Proof.
  intros Hs Hi Hw He Hq Hd Hp Hh Hn. set (f := taken c m sd q) in *.
  assert (Sf : signed_qty f = match sd with Buy => q | Sell => - q end) by reflexivity.
  split; [|split].
  - unfold take_crash. fold f. apply harmless_two; [apply harmless_demand; lia|]. unfold fill_crash. cbv zeta. change (f_qty f) with q. change (f_price f) with (m_price m sd).
    destruct ((m_pos m =? 0) || (Z.sgn (m_pos m) =? Z.sgn (signed_qty f))) eqn:E.
    + apply harmless_demand. apply Z.ltb_lt. apply margin_pos; try assumption; [|apply whole_ge; assumption].
      apply Hh. apply orb_prop in E as [E|E]; apply Z.eqb_eq in E; auto.
    + apply orb_false_iff in E as [E1 E2]. apply Z.eqb_neq in E1, E2. destruct (He E1) as [Ep Em].
      assert (Lq : q <= Z.abs (m_pos m)).
      { rewrite Sf in E2. destruct sd; cbn [no_flip] in Hn; destruct (Z.sgn_spec (m_pos m)) as [[? X]|[[? X]|[? X]]]; rewrite X in E2; lia. }
      replace (Z.min q (Z.abs (m_pos m))) with q by lia.
      assert (M : (0 <? margin_at c q (l_entry (m_book m))) = true).
      { apply Z.ltb_lt. apply margin_pos; try assumption; [split; assumption | apply whole_ge; assumption]. }
      apply harmless_first. repeat apply Forall_cons; try apply Forall_nil.
      * apply harmless_demand. unfold divides. destruct (c_kind c); [reflexivity|]. destruct (Z.eqb_spec (l_entry (m_book m)) 0); [lia | reflexivity].
      * apply harmless_debug, harmless_demand, M.
      * apply harmless_demand, M.
      * destruct (Z.compare_spec q (Z.abs (m_pos m))); [|apply harmless_none | lia].
        unfold in_debug, harmless, demand. destruct (c_dbg c); [|auto]. destruct (_ =? _); auto.
  - rewrite Sf. destruct sd; [apply Z.divide_add_r; assumption | apply Z.divide_add_r; [assumption | apply Z.divide_opp_r; assumption]].
  - intros Hx. unfold m_fill, apply_fill. cbn [m_book]. change (l_qty (m_book m)) with (m_pos m).
    destruct (Z.eqb_spec (m_pos m) 0) as [E1|E1]; [cbn [l_entry]; apply Hh; auto|].
    destruct (Z.eqb_spec (Z.sgn (m_pos m)) (Z.sgn (signed_qty f))) as [E2|E2]; cbn [l_entry].
    + pose proof (He E1) as W. pose proof (Hh (or_intror E2)) as W2. apply (weighty_between c (l_entry (m_book m)) (m_price m sd)); try assumption.
      apply average_whole; [assumption | apply W | assumption | lia | assumption | apply Z.divide_abs_r; assumption | assumption].
    + destruct (Z.eqb_spec (m_pos m + signed_qty f) 0); [contradiction|].
      assert (Sg : Z.sgn (m_pos m + signed_qty f) = Z.sgn (m_pos m)).
      { rewrite Sf in *. destruct sd; cbn [no_flip] in Hn; lia. }
      rewrite Sg, Z.eqb_refl. apply He, E1.
Qed.

Lemma taker_id c m : taker c m -> taker c (with_id m).
Proof. intros H. destruct H. constructor; assumption. Qed.
Lemma need_none c n : 0 < c_scale c -> need c [] n = 0.
Proof. intros Hs. unfold need, requirement, ranking. cbn [pairs flat_map filter map fold_right]. cbn. destruct (Z.max 0 (- n)), (Z.max 0 n); reflexivity. Qed.

Lemma taker_check c m ru : 0 < c_scale c -> taker c m -> solvent_for m ru ->
  harmless c (check_crash c m ru) /\ m_meet_all c ru m = m.
Proof.
  intros Hs I Sv. assert (E : m_meet_all c ru m = m) by (unfold m_meet_all; rewrite (tk_orders _ _ I); reflexivity). split; [|exact E].
  assert (K : harmless c (first_of [ meet_all_crash c ru m (m_orders m); in_debug c (demand (m_reserved m =? need c (m_orders m) (m_pos m)) PEndMarginDebug);
                                     demand (0 <=? m_free m) PWalletNegative ]) \/ exists b, ru = RBba b).
  { destruct ru; [right; eauto | left ..]; (rewrite (tk_orders _ _ I); cbn [meet_all_crash]; apply harmless_first; repeat apply Forall_cons; try apply Forall_nil;
      [apply harmless_none | apply harmless_debug, harmless_demand; rewrite need_none, (tk_reserved _ _ I) by assumption; reflexivity | apply harmless_demand, Z.leb_le, Sv]). }
  destruct K as [K|[b ->]]; [|apply harmless_none]. unfold check_crash. cbv zeta. rewrite E. destruct ru; [apply harmless_none | exact K ..].
Qed.
Lemma taker_quote c m ru : taker c m -> match quote_of ru with Some (b, a) => 0 < b /\ 0 < a | None => True end -> taker c (with_quote m ru).
Proof.
  intros I Q. constructor; try apply I; unfold with_quote; cbn [m_bid m_ask]; destruct (quote_of ru) as [[b a]|]; cbn [fst snd]; try apply I; tauto.
Qed.

Lemma taker_update c m ru : 0 < c_scale c -> 0 <= ct_imr (c_spec c) -> taker c m -> priced_data c ru -> solvent_for m ru ->
  harmless c (update_crash c m ru) /\ taker c (fst (m_update c m ru)).
Proof.
  intros Hs Hi I (Q & _ & D) Sv. pose proof (taker_quote c m ru I Q) as I1. unfold update_crash, m_update.
  assert (Sv1 : solvent_for (with_quote m ru) ru) by (destruct ru; exact Sv). set (m1 := with_quote m ru) in *. clearbody m1. clear I Sv m.
  assert (D1 : harmless c (in_debug c (demand (data_valid (ct_pf (c_spec c)) ru) PInvalidUpdateDebug))).
  { unfold in_debug. destruct (c_dbg c); [|apply harmless_none]. apply harmless_demand, D. reflexivity. }
  destruct (m_due c m1) eqn:Due; cbn [fst].
  - assert (Np : m_pos m1 <> 0) by (intros E; unfold m_due in Due; rewrite E in Due; discriminate).
    pose proof (tk_quoted _ _ I1 Np) as Hb. pose proof (proj1 (tk_both _ _ I1) Hb) as Ha.
    set (sd := if 0 <? m_pos m1 then Sell else Buy). set (q := Z.abs (m_pos m1)).
    assert (Hsg : signed_qty (taken c m1 sd q) = - m_pos m1) by (unfold sd, q; destruct (Z.ltb_spec 0 (m_pos m1)); cbn [taken signed_qty f_side f_qty]; lia).
    destruct (taker_fill c m1 sd q Hs Hi (tk_whole _ _ I1) (tk_entry _ _ I1) ltac:(unfold q; lia)) as (X & Y & Z0).
    { unfold q. apply Z.divide_abs_r, I1. }
    { unfold m_price. destruct sd; assumption. }
    { rewrite Hsg. intros [|E]; [contradiction|]. lia. }
    { unfold sd, q, no_flip. destruct (Z.ltb_spec 0 (m_pos m1)); lia. }
    split.
    + apply harmless_two; [exact D1|]. apply harmless_two; [|exact X]. apply harmless_demand.
      destruct (tk_able _ _ I1) as [|A]; [contradiction|]. unfold q. rewrite A. reflexivity.
    + apply taker_id. assert (P0 : m_pos (m_fill c m1 (taken c m1 sd q)) = 0) by (rewrite pos_after, Hsg; lia).
      constructor; try apply I1; rewrite ?P0; try lia; [apply Z.divide_0_r | left; reflexivity].
  - destruct (taker_check c m1 ru Hs I1 Sv1) as [X ->]. split; [|exact I1]. apply harmless_two; assumption.
Qed.

Lemma taker_market c m sd q uid : 0 < c_scale c -> 0 <= ct_imr (c_spec c) -> taker c m ->
  (c_scale c | q) -> weighty c (m_price m sd) -> no_flip (m_pos m) sd q -> tradable c (m_pos (fst (m_market c m sd q uid))) ->
  harmless c (market_crash c m sd q) /\ taker c (fst (m_market c m sd q uid)).
Proof.
  intros Hs Hi I Hd Hw Hn Ht. unfold market_crash. unfold m_market in *. destruct (Z.leb_spec q 0); [split; [apply harmless_none | exact I]|].
  destruct (quantity_fault _ _); [split; [apply harmless_none | exact I]|].
  assert (Dv : forall b, harmless c (demand (b || divides c (m_price m sd)) PDivByZero)).
  { intros b. apply harmless_demand. unfold divides. destruct (c_kind c); [apply orb_true_r|]. destruct Hw. destruct (Z.eqb_spec (m_price m sd) 0); [lia | apply orb_true_r]. }
  destruct (m_funded c m sd q); [|split; [apply harmless_two; [apply Dv | apply harmless_none] | apply taker_id, I]].
  cbn [fst] in *. destruct (taker_fill c m sd q Hs Hi (tk_whole _ _ I) (tk_entry _ _ I) ltac:(lia) Hd (proj1 Hw) (fun _ => Hw) Hn) as (X & Y & Z0).
  split; [apply harmless_two; [apply Dv | exact X]|]. apply taker_id. rewrite <- (pos_after c m) in Y, Z0.
  constructor; try apply I; try assumption. intros _. destruct Hw as [Hp _]. pose proof (tk_both _ _ I). change (0 < m_bid m). unfold m_price in Hp. destruct sd; tauto.
Qed.

Lemma taker_step c m o : 0 < c_scale c -> 0 <= ct_imr (c_spec c) -> taker c m -> taker_call c m o (fst (m_call c m o)) ->
  harmless c (m_crash c m o) /\ taker c (fst (m_call c m o)).
Proof.
  intros Hs Hi I (H1 & H2 & H3 & H4 & H5 & H6 & H7). destruct o as [ru|sd q uid|sd p q uid|b|id sd p q uid|ru]; cbn [m_call m_crash fst] in *.
  - destruct (taker_update c m ru Hs Hi I H2 H3) as [X Y]. split; [|exact Y]. apply harmless_two; [|exact X]. destruct H2 as (_ & -> & _). apply harmless_none.
  - apply taker_market; assumption.
  - destruct H1.
  - unfold m_cancel, cancel_crash. rewrite (tk_orders _ _ I). cbn [find fst]. split; [|exact I]. apply harmless_two; [|apply harmless_none].
    apply harmless_demand. rewrite need_none, (tk_reserved _ _ I) by assumption. reflexivity.
  - unfold m_amend, amend_crash. rewrite (tk_orders _ _ I). cbn [find]. destruct (p <=? 0), (q <=? 0); cbn [orb fst]; (split; [apply harmless_none | exact I]).
  - destruct (taker_check c m ru Hs I H3) as [X ->]. split; [|exact I]. apply harmless_two; [|exact X]. destruct H2 as (_ & -> & _). apply harmless_none.
Qed.

Lemma taker_start c : valid_config c -> taker c (m_start c).
Proof.
  intros V. constructor; unfold m_start, m_pos; cbn; try lia; try reflexivity; [apply Z.divide_0_r | left; reflexivity].
Qed.
Lemma taker_run c ops : forall e,
  valid_config c -> reachable c e -> taker c (machine_of e) -> calls_with c (taker_call c) (machine_of e) ops ->
  match run c e ops with
  | Done (e', outs) => taker c (machine_of e')
  | Panic w => c_dbg c = true /\ w = PCloseMarginDebug
  end.
Proof.
  induction ops as [|o ops IH]; intros e V R I H; cbn [run]; [exact I|]. destruct H as [H1 H2].
  pose proof (vc_scale _ V) as Hs. pose proof (vc_imr _ V) as Hi.
  destruct (taker_step c _ o Hs ltac:(lia) I H1) as [X Y]. pose proof (crash_step c e o V R) as K.
  destruct (step c e o) as [[e1 r]|w] eqn:E; cbn [bind].
  - rewrite (machine_step c e o e1 r V R E) in Y, H2. cbn [fst] in Y, H2. specialize (IH e1 V (reach_step _ _ _ _ _ R E) Y H2).
    destruct (run c e1 ops) as [[e2 rs]|w] eqn:E2; cbn [bind]; exact IH.
  - rewrite K in X. destruct X as [X|[D X]]; [discriminate|]. injection X as ->. auto.
Qed.

Lemma taker_history c ops : valid_config c -> c_dbg c = false -> calls_with c (taker_call c) (m_start c) ops ->
  exists e outs, history c ops e outs /\ ex_active e = [] /\ order_margin_of e = 0 /\ (c_scale c | position_quantity (ex_pos e)).
Proof.
  intros V D H. destruct (init_total c V) as [e0 Hi].
  assert (R : reachable c e0) by (exists [], [], e0; split; [exact Hi | reflexivity]).
  pose proof (machine_init c e0 Hi) as E0. pose proof (taker_start c V) as I0. rewrite <- E0 in I0, H.
  pose proof (taker_run c ops e0 V R I0 H) as X. destruct (run c e0 ops) as [[e outs]|w] eqn:E; [|destruct X; congruence].
  exists e, outs. split; [exists e0; auto|]. split; [exact (tk_orders _ _ X) | split; [exact (tk_reserved _ _ X) | exact (tk_whole _ _ X)]].
Qed.
Lemma taker_debug c ops : valid_config c -> calls_with c (taker_call c) (m_start c) ops ->
  exists e0, init c = Done e0 /\ forall w, run c e0 ops = Panic w -> w = PCloseMarginDebug.
Proof.
  intros V H. destruct (init_total c V) as [e0 Hi]. exists e0. split; [exact Hi|]. intros w E.
  assert (R : reachable c e0) by (exists [], [], e0; split; [exact Hi | reflexivity]).
  pose proof (machine_init c e0 Hi) as E0. pose proof (taker_start c V) as I0. rewrite <- E0 in I0, H.
  pose proof (taker_run c ops e0 V R I0 H) as X. rewrite E in X. apply X.
Qed.

(** ** Round trips *)
Record rounder (c : config) (m : machine) : Prop := {
  ro_taker : taker c m;
  ro_held : m_held m = margin_at c (Z.abs (m_pos m)) (l_entry (m_book m))
}.
Lemma round_id c m : rounder c m -> rounder c (with_id m).
Proof. intros [H1 H2]. constructor; [apply taker_id, H1 | exact H2]. Qed.
Lemma margin_zero c p : margin_at c 0 p = 0.
Proof. unfold margin_at. destruct (c_kind c); cbn [value]; rewrite ?Z.mul_0_l; destruct p, (c_scale c); reflexivity. Qed.

Lemma round_fill c m sd q :
  0 < c_scale c -> 0 <= ct_imr (c_spec c) -> rounder c m -> 0 < q -> (c_scale c | q) -> 0 < m_price m sd ->
  (weighty c (m_price m sd) \/ m_pos m + signed_qty (taken c m sd q) = 0) ->
  (m_pos m = 0 \/ (Z.sgn (m_pos m) <> Z.sgn (signed_qty (taken c m sd q)) /\ Z.abs (m_pos m) <= q)) ->
  let m' := m_fill c m (taken c m sd q) in
  take_crash c m sd q = None /\ (c_scale c | m_pos m') /\ (m_pos m' <> 0 -> weighty c (l_entry (m_book m'))) /\
  m_held m' = margin_at c (Z.abs (m_pos m')) (l_entry (m_book m')).
Proof.
  intros Hs Hi [I He] Hq Hd Hp Hw Hr. cbv zeta. set (f := taken c m sd q) in *. rewrite pos_after.
  assert (Sf : signed_qty f = match sd with Buy => q | Sell => - q end) by reflexivity.
  assert (Wh : (c_scale c | m_pos m + signed_qty f)).
  { rewrite Sf. destruct sd; apply Z.divide_add_r; try apply I; try assumption. apply Z.divide_opp_r; assumption. }
  unfold take_crash, m_fill, margin_after, apply_fill, fill_crash. fold f. cbn [m_book m_held]. cbv zeta. change (l_qty (m_book m)) with (m_pos m).
  change (f_qty f) with q. change (f_price f) with (m_price m sd).
  assert (P1 : demand (0 <? m_price m sd) PSettlePrice = None) by (unfold demand; destruct (Z.ltb_spec 0 (m_price m sd)); [reflexivity | lia]).
  rewrite P1. cbn [first_of].
  destruct (Z.eqb_spec (m_pos m) 0) as [E|E]; cbn [orb].
  - assert (W : weighty c (m_price m sd)) by (destruct Hw as [|X]; [assumption|]; rewrite Sf in X; destruct sd; lia).
    pose proof (margin_pos c q _ Hs Hi W (whole_ge _ _ Hs Hq Hd)) as M. split; [unfold demand; destruct (Z.ltb_spec 0 (margin_at c q (m_price m sd))); [reflexivity | lia]|].
    split; [exact Wh|]. cbn [l_entry]. split; [auto|]. rewrite He, E. cbn [Z.abs]. rewrite margin_zero, Z.add_0_l. f_equal. rewrite Sf. destruct sd; lia.
  - destruct Hr as [|[Hr1 Hr2]]; [contradiction|]. destruct (Z.eqb_spec (Z.sgn (m_pos m)) (Z.sgn (signed_qty f))); [contradiction|]. cbn [l_entry].
    pose proof (tk_entry _ _ I E) as We. pose proof (margin_pos c (Z.abs (m_pos m)) _ Hs Hi We ltac:(apply whole_ge; [assumption | lia | apply Z.divide_abs_r, I])) as M.
    replace (Z.min q (Z.abs (m_pos m))) with (Z.abs (m_pos m)) by lia.
    assert (D1 : demand (divides c (l_entry (m_book m))) PDivByZero = None).
    { unfold demand, divides. destruct (c_kind c); [reflexivity|]. destruct We. destruct (Z.eqb_spec (l_entry (m_book m)) 0); [lia | reflexivity]. }
    assert (D2 : forall w, demand (0 <? margin_at c (Z.abs (m_pos m)) (l_entry (m_book m))) w = None) by (intros; unfold demand; destruct (Z.ltb_spec 0 (margin_at c (Z.abs (m_pos m)) (l_entry (m_book m)))); [reflexivity | lia]).
    assert (D3 : forall w, demand (m_held m =? margin_at c (Z.abs (m_pos m)) (l_entry (m_book m))) w = None) by (intros; unfold demand; rewrite He, Z.eqb_refl; reflexivity).
    rewrite D1, !D2, !D3. unfold in_debug.
    assert (B : forall A (x : A), (if c_dbg c then x else x) = x) by (intros; destruct (c_dbg c); reflexivity). rewrite !B. cbn [first_of].
    destruct (Z.compare_spec q (Z.abs (m_pos m))) as [E3|E3|E3]; [|lia|].
    + assert (Z0 : m_pos m + signed_qty f = 0) by (rewrite Sf in *; destruct sd; lia). rewrite Z0. cbn [Z.eqb]. split; [reflexivity|]. split; [apply Z.divide_0_r|].
      split; [lia|]. destruct (Z.leb_spec q (Z.abs (m_pos m))); [|lia]. rewrite He, <- E3. cbn [Z.abs]. rewrite margin_zero. lia.
    + assert (N0 : m_pos m + signed_qty f <> 0) by (rewrite Sf in *; destruct sd; lia).
      assert (W : weighty c (m_price m sd)) by (destruct Hw; [assumption | contradiction]).
      assert (Ab : Z.abs (m_pos m + signed_qty f) = q - Z.abs (m_pos m)) by (rewrite Sf in *; destruct sd; lia).
      assert (Sg : Z.sgn (m_pos m + signed_qty f) <> Z.sgn (m_pos m)) by (rewrite Sf in *; destruct sd; lia).
      destruct (Z.eqb_spec (m_pos m + signed_qty f) 0); [contradiction|]. destruct (Z.eqb_spec (Z.sgn (m_pos m + signed_qty f)) (Z.sgn (m_pos m))); [contradiction|].
      destruct (Z.leb_spec q (Z.abs (m_pos m))); [lia|]. rewrite Ab.
      assert (M2 : 0 < margin_at c (q - Z.abs (m_pos m)) (m_price m sd)).
      { apply margin_pos; try assumption. apply whole_ge; [assumption | lia|]. apply Z.divide_sub_r; [assumption | apply Z.divide_abs_r, I]. }
      split; [unfold demand; destruct (Z.ltb_spec 0 (margin_at c (q - Z.abs (m_pos m)) (m_price m sd))); [reflexivity | lia]|].
      split; [exact Wh|]. split; [auto | reflexivity].
Qed.

Lemma round_check c m ru : 0 < c_scale c -> taker c m -> solvent_for m ru -> check_crash c m ru = None.
Proof.
  intros Hs I Sv. assert (E : m_meet_all c ru m = m) by (unfold m_meet_all; rewrite (tk_orders _ _ I); reflexivity).
  assert (F : demand (m_reserved m =? need c (m_orders m) (m_pos m)) PEndMarginDebug = None) by (rewrite (tk_orders _ _ I), need_none, (tk_reserved _ _ I) by assumption; reflexivity).
  assert (B : forall A (x : A), (if c_dbg c then x else x) = x) by (intros; destruct (c_dbg c); reflexivity).
  unfold check_crash. cbv zeta. rewrite E, F. unfold in_debug. rewrite B. rewrite (tk_orders _ _ I). cbn [meet_all_crash first_of].
  destruct ru; cbn [solvent_for] in Sv; unfold demand; try reflexivity; destruct (Z.leb_spec 0 (m_free m)); try reflexivity; lia.
Qed.
Lemma round_update c m ru : 0 < c_scale c -> 0 <= ct_imr (c_spec c) -> rounder c m -> priced_data c ru -> solvent_for m ru ->
  update_crash c m ru = None /\ rounder c (fst (m_update c m ru)).
Proof.
  intros Hs Hi [I He] (Q & _ & D) Sv. pose proof (taker_quote c m ru I Q) as I1. unfold update_crash, m_update.
  assert (Sv1 : solvent_for (with_quote m ru) ru) by (destruct ru; exact Sv).
  assert (He1 : m_held (with_quote m ru) = margin_at c (Z.abs (m_pos (with_quote m ru))) (l_entry (m_book (with_quote m ru)))) by exact He.
  set (m1 := with_quote m ru) in *. clearbody m1. clear I Sv He m.
  assert (D1 : in_debug c (demand (data_valid (ct_pf (c_spec c)) ru) PInvalidUpdateDebug) = None).
  { unfold in_debug. destruct (c_dbg c); [|reflexivity]. unfold demand. rewrite D; reflexivity. }
  rewrite D1. cbn [first_of]. destruct (m_due c m1) eqn:Due; cbn [fst].
  - assert (Np : m_pos m1 <> 0) by (intros E; unfold m_due in Due; rewrite E in Due; discriminate).
    pose proof (tk_quoted _ _ I1 Np) as Hb. pose proof (proj1 (tk_both _ _ I1) Hb) as Ha.
    set (sd := if 0 <? m_pos m1 then Sell else Buy). set (q := Z.abs (m_pos m1)).
    assert (Hsg : signed_qty (taken c m1 sd q) = - m_pos m1) by (unfold sd, q; destruct (Z.ltb_spec 0 (m_pos m1)); cbn [taken signed_qty f_side f_qty]; lia).
    destruct (round_fill c m1 sd q Hs Hi (Build_rounder _ _ I1 He1) ltac:(unfold q; lia)) as (X & Y & Z0 & H0).
    { unfold q. apply Z.divide_abs_r, I1. }
    { unfold m_price. destruct sd; assumption. }
    { right. rewrite Hsg. lia. }
    { right. rewrite Hsg. unfold q. lia. }
    split.
    + rewrite X. destruct (tk_able _ _ I1) as [|A]; [contradiction|]. unfold q. rewrite A. reflexivity.
    + apply round_id. constructor; [|exact H0]. assert (P0 : m_pos (m_fill c m1 (taken c m1 sd q)) = 0) by (rewrite pos_after, Hsg; lia).
      constructor; try apply I1; rewrite ?P0; try lia; [apply Z.divide_0_r | left; reflexivity].
  - rewrite (round_check c m1 ru Hs I1 Sv1). destruct (taker_check c m1 ru Hs I1 Sv1) as [_ ->]. split; [reflexivity | constructor; assumption].
Qed.
Lemma round_market c m sd q uid : 0 < c_scale c -> 0 <= ct_imr (c_spec c) -> rounder c m ->
  (c_scale c | q) -> weighty c (m_price m sd) -> round_trip m (OpMarket sd q uid) -> tradable c (m_pos (fst (m_market c m sd q uid))) ->
  market_crash c m sd q = None /\ rounder c (fst (m_market c m sd q uid)).
Proof.
  intros Hs Hi R Hd Hw Hr Ht. unfold market_crash. unfold m_market in *. destruct (Z.leb_spec q 0); [split; [reflexivity | exact R]|].
  destruct (quantity_fault _ _); [split; [reflexivity | exact R]|].
  assert (Dv : forall b, demand (b || divides c (m_price m sd)) PDivByZero = None).
  { intros b. unfold demand, divides. destruct (c_kind c); [rewrite orb_true_r; reflexivity|]. destruct Hw. destruct (Z.eqb_spec (m_price m sd) 0); [lia|]. rewrite orb_true_r. reflexivity. }
  rewrite Dv. cbn [first_of]. destruct (m_funded c m sd q); [|split; [reflexivity | apply round_id, R]].
  cbn [fst] in *. destruct (round_fill c m sd q Hs Hi R ltac:(lia) Hd (proj1 Hw) (or_introl Hw)) as (X & Y & Z0 & H0).
  { destruct sd; cbn [round_trip taken signed_qty f_side f_qty] in *; lia. }
  split; [rewrite X; reflexivity|]. apply round_id. constructor; [|exact H0]. pose proof (ro_taker _ _ R) as I.
  constructor; try apply I; try assumption. intros _. destruct Hw as [Hp _]. pose proof (tk_both _ _ I). change (0 < m_bid m). unfold m_price in Hp. destruct sd; tauto.
Qed.
Lemma round_step c m o : 0 < c_scale c -> 0 <= ct_imr (c_spec c) -> rounder c m -> round_call c m o (fst (m_call c m o)) ->
  m_crash c m o = None /\ rounder c (fst (m_call c m o)).
Proof.
  intros Hs Hi R (H1 & H2 & H3 & H4 & H5 & H6 & H7). pose proof (ro_taker _ _ R) as I. destruct o as [ru|sd q uid|sd p q uid|b|id sd p q uid|ru]; cbn [m_call m_crash fst] in *.
  - destruct (round_update c m ru Hs Hi R H2 H3) as [X Y]. split; [|exact Y]. rewrite X. destruct H2 as (_ & -> & _). reflexivity.
  - apply round_market; assumption.
  - destruct H1.
  - unfold m_cancel, cancel_crash. rewrite (tk_orders _ _ I). cbn [find fst]. split; [|exact R]. rewrite need_none, (tk_reserved _ _ I) by assumption. reflexivity.
  - unfold m_amend, amend_crash. rewrite (tk_orders _ _ I). cbn [find]. destruct (p <=? 0), (q <=? 0); cbn [orb fst]; (split; [reflexivity | exact R]).
  - rewrite (round_check c m ru Hs I H3). destruct (taker_check c m ru Hs I H3) as [_ ->]. split; [|exact R]. destruct H2 as (_ & -> & _). reflexivity.
Qed.
Lemma round_run c ops : forall e,
  valid_config c -> reachable c e -> rounder c (machine_of e) -> calls_with c (round_call c) (machine_of e) ops ->
  match run c e ops with Done (e', outs) => rounder c (machine_of e') | Panic w => False end.
Proof.
  induction ops as [|o ops IH]; intros e V R I H; cbn [run]; [exact I|]. destruct H as [H1 H2].
  pose proof (vc_scale _ V) as Hs. pose proof (vc_imr _ V) as Hi.
  destruct (round_step c _ o Hs ltac:(lia) I H1) as [X Y]. pose proof (crash_step c e o V R) as K.
  destruct (step c e o) as [[e1 r]|w] eqn:E; cbn [bind]; [|congruence].
  rewrite (machine_step c e o e1 r V R E) in Y, H2. cbn [fst] in Y, H2. specialize (IH e1 V (reach_step _ _ _ _ _ R E) Y H2).
  destruct (run c e1 ops) as [[e2 rs]|w] eqn:E2; cbn [bind]; exact IH.
Qed.
Lemma round_history c ops : valid_config c -> calls_with c (round_call c) (m_start c) ops ->
  exists e outs, history c ops e outs /\ ex_active e = [] /\ order_margin_of e = 0 /\
    position_margin_of e = margin_at c (Z.abs (position_quantity (ex_pos e))) (position_entry_price (ex_pos e)).
Proof.
  intros V H. destruct (init_total c V) as [e0 Hi].
  assert (R : reachable c e0) by (exists [], [], e0; split; [exact Hi | reflexivity]).
  pose proof (machine_init c e0 Hi) as E0. assert (I0 : rounder c (m_start c)) by (constructor; [apply taker_start, V | cbn; rewrite margin_zero; reflexivity]). rewrite <- E0 in I0, H.
  pose proof (round_run c ops e0 V R I0 H) as X. destruct (run c e0 ops) as [[e outs]|w] eqn:E; [|destruct X].
  exists e, outs. split; [exists e0; auto|]. destruct X as [X Y]. split; [exact (tk_orders _ _ X) | split; [exact (tk_reserved _ _ X) | exact Y]].
Qed.
