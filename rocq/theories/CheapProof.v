(** Lower fees never hurt: a simulation on the reference machine. *)
From Verif Require Import ProofBase Types Accounting Position OrderBook OrderMargin MarketUpdate Exchange Spec SpecConfig SpecMarket SpecFlow SpecMargin
  SpecView SpecMachine SpecCrash MachineProof CrashProof Inv SoundProof HealthProof SpecCheap.

Section Cheap.
Variables (c : config) (mk tk g : Z).
Hypothesis V : valid_config c.
Hypothesis K : cheaper mk tk g c.
Let c' := repriced mk tk g c.

Lemma fee_le q p r r' : 0 <= q -> 0 < p -> r' <= r ->
  forall sd, fee (c_kind c) (c_scale c) {| f_side := sd; f_qty := q; f_price := p; f_rate := r' |} <=
  fee (c_kind c) (c_scale c) {| f_side := sd; f_qty := q; f_price := p; f_rate := r |}.
Proof.
  intros Hq Hp Hr sd. unfold fee. cbn [f_qty f_price f_rate]. pose proof (vc_scale _ V).
  assert (0 <= value (c_kind c) (c_scale c) q p).
  { unfold value. destruct (c_kind c); apply Z.quot_pos; nia. }
  apply Z.quot_le_mono; [lia | nia].
Qed.

Lemma better_id m m' : m_better g m m' -> m_better g (with_id m) (with_id m').
Proof. unfold m_better, with_id. cbn. intuition lia. Qed.
Lemma better_quote m m' ru : m_better g m m' -> m_better g (with_quote m ru) (with_quote m' ru).
Proof.
  unfold m_better, with_quote. cbn. intros (H1 & H2 & H3 & H4 & H5 & H6 & H7 & H8 & H9 & H10 & H11 & H12).
  rewrite H9, H10. intuition.
Qed.
Lemma better_orders m m' l n : m_better g m m' -> m_better g (with_orders m l n) (with_orders m' l n).
Proof. unfold m_better, with_orders. cbn. intuition lia. Qed.

Lemma better_fill m m' sd q p r r' : m_better g m m' -> 0 <= q -> 0 < p -> r' <= r ->
  m_better g (m_fill c m {| f_side := sd; f_qty := q; f_price := p; f_rate := r |})
    (m_fill c' m' {| f_side := sd; f_qty := q; f_price := p; f_rate := r' |}).
Proof.
  intros B Hq Hp Hr. pose proof (fee_le q p r r' Hq Hp Hr sd) as F. unfold m_better in *. destruct m as [[n en du ca pa] he re os bi a t nx], m' as [[n' en' du' ca' pa'] he' re' os' bi' a' t' nx'].
  cbn in B. destruct B as (-> & -> & H3 & H4 & H5 & -> & -> & -> & -> & -> & -> & ->).
  cbn [m_fill m_book m_held m_reserved m_orders m_bid m_ask m_time m_next].
  set (f := {| f_side := sd; f_qty := q; f_price := p; f_rate := r |}) in *. set (f' := {| f_side := sd; f_qty := q; f_price := p; f_rate := r' |}) in *.
  change (c_kind c') with (c_kind c). change (c_scale c') with (c_scale c).
  unfold apply_fill, margin_after. cbn [l_qty l_entry l_due l_cash l_paid]. change (signed_qty f') with (signed_qty f).
  change (f_qty f') with (f_qty f). change (f_price f') with (f_price f).
  change (margin_at c') with (margin_at c).
  destruct (n =? 0), (Z.sgn n =? Z.sgn (signed_qty f)); cbn [orb l_qty l_entry l_due l_cash l_paid]; repeat split; try lia.
  destruct (Z.sgn (n + signed_qty f) =? Z.sgn n); lia.
Qed.

Lemma crash_fill m m' sd q p r r' : m_better g m m' ->
  fill_crash c' m' {| f_side := sd; f_qty := q; f_price := p; f_rate := r' |} =
  fill_crash c m {| f_side := sd; f_qty := q; f_price := p; f_rate := r |}.
Proof.
  intros B. unfold m_better in B. destruct m as [[n en du ca pa] he re os bi a t nx], m' as [[n' en' du' ca' pa'] he' re' os' bi' a' t' nx'].
  cbn in B. destruct B as (-> & -> & H3 & H4 & H5 & -> & -> & -> & -> & -> & -> & ->). reflexivity.
Qed.
Lemma better_pos m m' : m_better g m m' -> m_pos m' = m_pos m.
Proof. intros B. apply B. Qed.
Lemma better_free m m' : m_better g m m' -> m_free m <= m_free m'.
Proof. destruct K as (_ & _ & ?). unfold m_better, m_free. lia. Qed.

(** ** Fills *)
Lemma meet_better ru m m' o : m_better g m m' -> 0 < lo_price o -> meet_crash c ru m o = None ->
  m_better g (m_meet c ru m o) (m_meet c' ru m' o).
Proof.
  intros B Hp H. unfold meet_crash, m_meet in *. destruct (touched ru o) as [q|]; [|exact B].
  assert (Hq : 0 < q).
  { destruct (match ru with RTrade t => _ | _ => _ end); [discriminate|]. cbn [first_of] in H.
    destruct (in_debug c (demand (m_reserved m =? _) _)); [discriminate|]. destruct (Z.ltb_spec 0 q); [assumption | discriminate]. }
  change (c_scale c') with (c_scale c). change (ct_maker (c_spec c')) with mk.
  assert (Bo : m_orders m' = m_orders m) by apply B. assert (Br : m_reserved m' = m_reserved m) by apply B. rewrite Bo, Br.
  assert (F := better_fill m m' (lo_side o) q (lo_price o) _ _ B (Z.lt_le_incl _ _ Hq) Hp (proj1 K)).
  rewrite (better_pos _ _ F). change (need c') with (need c). apply better_orders. exact F.
Qed.
Lemma better_reserved m m' : m_better g m m' -> m_reserved m' = m_reserved m.
Proof. intros B. apply B. Qed.
Lemma better_book m m' : m_better g m m' -> m_orders m' = m_orders m.
Proof. intros B. apply B. Qed.

Lemma meet_pos ru m m' o : m_better g m m' -> m_orders (m_meet c' ru m' o) = m_orders (m_meet c ru m o) /\ m_pos (m_meet c' ru m' o) = m_pos (m_meet c ru m o).
Proof.
  intros B. unfold m_better in B. destruct m as [[n en du ca pa] he re os bi a t nx], m' as [[n' en' du' ca' pa'] he' re' os' bi' a' t' nx'].
  cbn in B. destruct B as (-> & -> & H3 & H4 & H5 & -> & -> & -> & -> & -> & -> & ->). unfold m_meet. destruct (touched ru o); [|split; reflexivity].
  split; [reflexivity|]. unfold with_orders, m_pos, m_fill, apply_fill. cbn [m_book l_qty].
  change (signed_qty {| f_side := lo_side o; f_qty := z; f_price := lo_price o; f_rate := ct_maker (c_spec c') |})
    with (signed_qty {| f_side := lo_side o; f_qty := z; f_price := lo_price o; f_rate := ct_maker (c_spec c) |}).
  destruct (n =? 0); [reflexivity|]. destruct (Z.sgn n =? _); reflexivity.
Qed.
Lemma crash_meet ru m m' o : m_better g m m' -> meet_crash c' ru m' o = meet_crash c ru m o.
Proof.
  intros B. unfold meet_crash. destruct (touched ru o) as [q|]; [|reflexivity].
  destruct (meet_pos ru m m' o B) as [E1 E2]. rewrite E1, E2, (better_reserved _ _ B), (better_book _ _ B), (better_pos _ _ B).
  change (need c') with (need c). change (in_debug c') with (in_debug c).
  rewrite (crash_fill m m' (lo_side o) q (lo_price o) (ct_maker (c_spec c)) (ct_maker (c_spec c')) B). reflexivity.
Qed.
Lemma first_two a b : first_of [a; b] = None -> a = None /\ b = None.
Proof. destruct a, b; cbn; intros; discriminate || auto. Qed.
Lemma meet_list ru l : (forall o, In o l -> 0 < lo_price o) -> forall m m', m_better g m m' ->
  meet_all_crash c' ru m' l = meet_all_crash c ru m l /\
  (meet_all_crash c ru m l = None -> m_better g (fold_left (m_meet c ru) l m) (fold_left (m_meet c' ru) l m')).
Proof.
  induction l as [|o l IH]; intros P m m' B; cbn [meet_all_crash fold_left]; [split; auto|].
  rewrite (crash_meet ru m m' o B). destruct (meet_crash c ru m o) as [w|] eqn:E; [split; [reflexivity | discriminate]|].
  destruct (IH (fun x H => P x (or_intror H)) _ _ (meet_better ru m m' o B (P o (or_introl eq_refl)) E)) as [H1 H2].
  cbn [first_of]. rewrite H1. split; [reflexivity|]. intros H. apply H2. destruct (meet_all_crash c ru (m_meet c ru m o) l); [discriminate | reflexivity].
Qed.

Lemma check_better ru m m' : (forall o, In o (m_orders m) -> 0 < lo_price o) -> m_better g m m' ->
  match check_crash c m ru with
  | None => check_crash c' m' ru = None /\ m_better g (m_meet_all c ru m) (m_meet_all c' ru m')
  | Some w => In w avoided \/ check_crash c' m' ru = Some w
  end.
Proof.
  intros P B. destruct (meet_list ru (m_orders m) P m m' B) as [H1 H2]. unfold check_crash, m_meet_all. rewrite (better_book _ _ B).
  change (need c') with (need c). change (in_debug c') with (in_debug c).
  destruct (match ru with RBba _ => true | _ => false end) eqn:Eb.
  { destruct ru; try discriminate. split; [reflexivity|]. apply H2.
    clear - P. revert m P. assert (forall l m, meet_all_crash c (RBba b) m l = None) as A.
    { induction l as [|o l IH]; intros m; cbn; [reflexivity|]. rewrite IH. reflexivity. }
    intros. apply A. }
  assert (match first_of [meet_all_crash c ru m (m_orders m);
      in_debug c (demand (m_reserved (fold_left (m_meet c ru) (m_orders m) m) =? need c (m_orders (fold_left (m_meet c ru) (m_orders m) m)) (m_pos (fold_left (m_meet c ru) (m_orders m) m))) PEndMarginDebug);
      demand (0 <=? m_free (fold_left (m_meet c ru) (m_orders m) m)) PWalletNegative] with
    | None => first_of [meet_all_crash c' ru m' (m_orders m);
      in_debug c (demand (m_reserved (fold_left (m_meet c' ru) (m_orders m) m') =? need c (m_orders (fold_left (m_meet c' ru) (m_orders m) m')) (m_pos (fold_left (m_meet c' ru) (m_orders m) m'))) PEndMarginDebug);
      demand (0 <=? m_free (fold_left (m_meet c' ru) (m_orders m) m')) PWalletNegative] = None /\ m_better g (fold_left (m_meet c ru) (m_orders m) m) (fold_left (m_meet c' ru) (m_orders m) m')
    | Some w => In w avoided \/ first_of [meet_all_crash c' ru m' (m_orders m);
      in_debug c (demand (m_reserved (fold_left (m_meet c' ru) (m_orders m) m') =? need c (m_orders (fold_left (m_meet c' ru) (m_orders m) m')) (m_pos (fold_left (m_meet c' ru) (m_orders m) m'))) PEndMarginDebug);
      demand (0 <=? m_free (fold_left (m_meet c' ru) (m_orders m) m')) PWalletNegative] = Some w end) as G.
  { rewrite H1. destruct (meet_all_crash c ru m (m_orders m)) as [w|]; [right; reflexivity|]. specialize (H2 eq_refl). cbn [first_of].
    rewrite (better_reserved _ _ H2), (better_book _ _ H2), (better_pos _ _ H2).
    destruct (in_debug c _); [right; reflexivity|]. cbn [first_of]. pose proof (better_free _ _ H2).
    destruct (Z.leb_spec 0 (m_free (fold_left (m_meet c ru) (m_orders m) m))); cbn [demand first_of].
    - destruct (Z.leb_spec 0 (m_free (fold_left (m_meet c' ru) (m_orders m) m'))); [|lia]. cbn. auto.
    - left. cbn. auto. }
  destruct ru; try discriminate; exact G.
Qed.

(** ** Execution at the quote *)
Lemma price_better m m' sd : m_better g m m' -> m_price m' sd = m_price m sd.
Proof. intros B. destruct sd; apply B. Qed.
Lemma take_better m m' sd q : m_better g m m' -> 0 <= q ->
  take_crash c' m' sd q = take_crash c m sd q /\
  (take_crash c m sd q = None -> m_better g (m_fill c m (taken c m sd q)) (m_fill c' m' (taken c' m' sd q))).
Proof.
  intros B Hq. unfold take_crash, taken. rewrite (price_better _ _ sd B). change (c_spec c') with (c_spec (repriced mk tk g c)). cbn [repriced c_spec ct_taker].
  rewrite (crash_fill m m' sd q (m_price m sd) (ct_taker (c_spec c)) tk B).
  split; [reflexivity|]. intros H. destruct (Z.ltb_spec 0 (m_price m sd)) as [Hp|Hp]; [|discriminate]. apply better_fill; [exact B | exact Hq | exact Hp | apply K].
Qed.
Lemma funded_better m m' sd q : m_better g m m' -> 0 < q -> 0 < m_price m sd -> m_funded c m sd q = true -> m_funded c' m' sd q = true.
Proof.
  intros B Hq Hp. unfold m_funded. rewrite (better_pos _ _ B), (price_better _ _ sd B).
  change (signed_qty (taken c' m' sd q)) with (signed_qty (taken c m sd q)). change (margin_at c') with (margin_at c).
  change (c_kind c') with (c_kind c). change (c_scale c') with (c_scale c).
  assert (F : forall n, 0 <= n -> fee (c_kind c) (c_scale c) (taken c' m' sd n) <= fee (c_kind c) (c_scale c) (taken c m sd n)).
  { intros n Hn. unfold taken. rewrite (price_better _ _ sd B). apply fee_le; [exact Hn | exact Hp | apply K]. }
  pose proof (better_free _ _ B) as Hf. assert (Hh : m_held m' = m_held m) by apply B.
  destruct ((m_pos m =? 0) || _).
  - intros H. apply Z.leb_le in H. apply Z.leb_le. specialize (F q). lia.
  - intros H. apply orb_true_iff in H. apply orb_true_iff. destruct H as [H|H]; [left; exact H|].
    destruct (Z.leb_spec q (Z.abs (m_pos m))) as [L|L]; [left; reflexivity|]. right.
    apply Z.leb_le in H. apply Z.leb_le. specialize (F (q - Z.abs (m_pos m))). lia.
Qed.

(** ** Orders *)
Lemma submit_better m m' sd p q uid : m_better g m m' ->
  refused (snd (m_submit c m sd p q uid)) \/
  snd (m_submit c' m' sd p q uid) = snd (m_submit c m sd p q uid) /\
  m_better g (fst (m_submit c m sd p q uid)) (fst (m_submit c' m' sd p q uid)).
Proof.
  intros B. pose proof (better_free _ _ B) as Hf. pose proof B as B0. unfold m_better in B0. unfold m_submit.
  change (ct_qf (c_spec c')) with (ct_qf (c_spec c)). change (ct_pf (c_spec c')) with (ct_pf (c_spec c)). change (c_scale c') with (c_scale c).
  change (need c') with (need c). change (c_max c') with (c_max c). rewrite (better_pos _ _ B).
  destruct B0 as (_ & _ & _ & _ & _ & _ & Hr & Ho & Hb & Ha & Ht & Hn). rewrite Hr, Ho, Hb, Ha, Ht, Hn.
  destruct (quantity_fault _ q); [right; split; [reflexivity | exact B]|]. destruct (price_fault _ _ _ p); [right; split; [reflexivity | exact B]|].
  cbv zeta. match goal with |- context [m_free m + ?a <? ?b] => destruct (Z.ltb_spec (m_free m + a) b) as [L|L]; [left; reflexivity | destruct (Z.ltb_spec (m_free m' + a) b); [lia|]] end.
  destruct (match sd with Buy => _ | Sell => _ end); [right; split; [reflexivity | apply better_id, B]|].
  destruct (c_max c <=? _); [right; split; [reflexivity | apply better_id, B]|].
  right. split; [reflexivity|]. apply better_id, better_orders, B.
Qed.
Lemma submit_safe m m' sd p q uid : m_better g m m' ->
  match submit_crash c m sd p q uid with
  | None => refused (snd (m_submit c m sd p q uid)) \/ submit_crash c' m' sd p q uid = None
  | Some w => In w avoided
  end.
Proof.
  intros B. pose proof (submit_better m m' sd p q uid B) as H. unfold submit_crash.
  destruct (m_submit c m sd p q uid) as [m1 r], (m_submit c' m' sd p q uid) as [m1' r']. cbn [fst snd] in H.
  destruct r as [o|er]; cbn.
  - destruct H as [H|[-> H]]; [discriminate|]. rewrite (better_reserved _ _ H), (better_reserved _ _ B). pose proof (better_free _ _ H).
    destruct (m_reserved m1 =? m_reserved m); cbn; [right; reflexivity|].
    destruct (Z.leb_spec 0 (m_free m1)); cbn; [|auto]. right. destruct (Z.leb_spec 0 (m_free m1')); [reflexivity | lia].
  - destruct H as [H|[-> H]]; [left; exact H | right; reflexivity].
Qed.
Lemma cancel_safe m m' b : m_better g m m' -> cancel_crash c' m' b = cancel_crash c m b.
Proof.
  intros B. unfold cancel_crash, m_drop. cbn [with_orders m_reserved]. rewrite (better_reserved _ _ B), (better_book _ _ B), (better_pos _ _ B). reflexivity.
Qed.
Lemma drop_better m m' b : m_better g m m' -> m_better g (m_drop c m b) (m_drop c' m' b).
Proof. intros B. unfold m_drop. rewrite (better_book _ _ B), (better_pos _ _ B). apply better_orders, B. Qed.
Lemma unknown_better m m' b : m_better g m m' -> m_unknown m' b = m_unknown m b.
Proof. intros B. unfold m_unknown. assert (E : m_next m' = m_next m) by apply B. rewrite E. reflexivity. Qed.

(** What is to be shown of a call. *)
Definition follows (m m' : machine) (o : op) : Prop :=
  match m_crash c m o with
  | None => refused (snd (m_call c m o)) \/
      m_crash c' m' o = None /\ snd (m_call c' m' o) = snd (m_call c m o) /\ m_better g (fst (m_call c m o)) (fst (m_call c' m' o))
  | Some w => In w avoided \/ m_crash c' m' o = Some w
  end.

Lemma market_follows m m' sd q uid : m_better g m m' -> follows m m' (OpMarket sd q uid).
Proof.
  intros B. unfold follows. cbn [m_crash m_call]. unfold market_crash, m_market. change (ct_qf (c_spec c')) with (ct_qf (c_spec c)).
  destruct (Z.leb_spec q 0) as [Hq|Hq]; [right; auto|]. destruct (quantity_fault _ q); [right; auto|].
  rewrite (better_pos _ _ B), (price_better _ _ sd B). change (signed_qty (taken c' m' sd q)) with (signed_qty (taken c m sd q)).
  change (divides c') with (divides c). cbv zeta. destruct (demand (_ || _) PDivByZero); [right; reflexivity|]. cbn [first_of].
  destruct (take_better m m' sd q B (Z.lt_le_incl _ _ Hq)) as [H1 H2].
  assert (Et : m_time m' = m_time m) by apply B. assert (En : m_next m' = m_next m) by apply B.
  destruct (m_funded c m sd q) eqn:EF.
  - destruct (Z.ltb_spec 0 (m_price m sd)) as [Hp|Hp].
    + rewrite (funded_better m m' sd q B Hq Hp EF), H1. destruct (take_crash c m sd q) as [w|]; cbn [first_of fst snd]; [right; reflexivity|].
      right. rewrite Et, En. split; [reflexivity|]. split; [reflexivity|]. apply better_id, H2. reflexivity.
    + unfold take_crash at 1. destruct (Z.ltb_spec 0 (m_price m sd)); [lia|]. cbn. auto.
  - cbn. left. reflexivity.
Qed.
Lemma limit_follows m m' sd p q uid : m_better g m m' -> follows m m' (OpLimit sd p q uid).
Proof.
  intros B. unfold follows. cbn [m_crash m_call]. unfold limit_crash, m_limit.
  destruct (p <=? 0); [right; auto|]. destruct (q <=? 0); [right; auto|]. cbn [orb].
  pose proof (submit_better m m' sd p q uid B) as H. pose proof (submit_safe m m' sd p q uid B) as S.
  destruct (submit_crash c m sd p q uid); [left; exact S|]. destruct S as [S|S]; [left; exact S|]. destruct H as [H|[H1 H2]]; [left; exact H|]. right. auto.
Qed.
Lemma cancel_follows m m' b : m_better g m m' -> follows m m' (OpCancel b).
Proof.
  intros B. unfold follows. cbn [m_crash m_call]. rewrite (cancel_safe _ _ b B). destruct (cancel_crash c m b); [right; reflexivity|].
  right. split; [reflexivity|]. unfold m_cancel. rewrite (better_book _ _ B), (unknown_better _ _ _ B).
  destruct (find (named b) (m_orders m)); cbn; (split; [reflexivity|]); [apply drop_better, B | exact B].
Qed.
Lemma amend_follows m m' id sd p q uid : m_better g m m' -> follows m m' (OpAmend id sd p q uid).
Proof.
  intros B. unfold follows. cbn [m_crash m_call]. unfold amend_crash, m_amend.
  destruct (p <=? 0); [right; auto|]. destruct (q <=? 0); [right; auto|]. cbn [orb]. rewrite (better_book _ _ B), (unknown_better _ _ _ B).
  destruct (find _ _) as [o|]; [|right; auto]. rewrite (cancel_safe _ _ _ B). cbv zeta.
  destruct (cancel_crash c m _); [right; reflexivity|]. cbn [first_of]. pose proof (drop_better m m' (ByOrderId id) B) as D.
  destruct (q - lo_filled_qty o <=? 0); cbn [first_of]; [right; auto|].
  pose proof (submit_better _ _ sd p (q - lo_filled_qty o) uid D) as H. pose proof (submit_safe _ _ sd p (q - lo_filled_qty o) uid D) as S.
  destruct (submit_crash c (m_drop c m _) sd p _ uid); [left; exact S|]. destruct S as [S|S]; [left; exact S|]. rewrite S. destruct H as [H|[H1 H2]]; [left; exact H|]. right. auto.
Qed.
Lemma due_better m m' : m_better g m m' -> m_due c' m' = m_due c m.
Proof. intros B. unfold m_due. rewrite (better_pos _ _ B). destruct B as (_ & -> & _ & _ & _ & _ & _ & _ & -> & -> & _). reflexivity. Qed.
Lemma update_follows m m' ru : (forall o, In o (m_orders m) -> 0 < lo_price o) -> m_better g m m' -> follows m m' (OpUpdate ru).
Proof.
  intros P B. unfold follows. cbn [m_crash m_call]. unfold update_crash, m_update.
  change (build_crash c') with (build_crash c). change (ct_pf (c_spec c')) with (ct_pf (c_spec c)). change (ct_qf (c_spec c')) with (ct_qf (c_spec c)). change (in_debug c') with (in_debug c).
  change (c_scale c') with (c_scale c).
  destruct (build_crash c ru); [right; reflexivity|]. cbn [first_of]. pose proof (better_quote m m' ru B) as Q. cbv zeta.
  rewrite (due_better _ _ Q), (better_pos _ _ Q). destruct (in_debug c _); [right; reflexivity|]. cbn [first_of].
  destruct (m_due c (with_quote m ru)).
  - destruct (quantity_fault _ _); [right; reflexivity|]. cbn [demand first_of].
    destruct (take_better _ _ (if 0 <? m_pos (with_quote m ru) then Sell else Buy) (Z.abs (m_pos (with_quote m ru))) Q (Z.abs_nonneg _)) as [H1 H2].
    rewrite H1. destruct (take_crash c _ _ _); [right; reflexivity|]. right. split; [reflexivity|]. split; [reflexivity|]. apply better_id, H2. reflexivity.
  - pose proof (check_better ru (with_quote m ru) (with_quote m' ru) P Q) as H. destruct (check_crash c (with_quote m ru) ru) as [w|].
    + destruct H as [H|H]; [left; exact H|]. right. rewrite H. reflexivity.
    + destruct H as [H1 H2]. right. rewrite H1. split; [reflexivity|]. cbn [fst snd]. rewrite (better_book _ _ Q). split; [reflexivity | exact H2].
Qed.
Lemma check_follows m m' ru : (forall o, In o (m_orders m) -> 0 < lo_price o) -> m_better g m m' -> follows m m' (OpCheck ru).
Proof.
  intros P B. unfold follows. cbn [m_crash m_call]. change (build_crash c') with (build_crash c).
  destruct (build_crash c ru); [right; reflexivity|]. cbn [first_of]. pose proof (check_better ru _ _ P B) as H. destruct (check_crash c m ru) as [w|].
  - destruct H as [H|H]; [left; exact H|]. right. rewrite H. reflexivity.
  - destruct H as [H1 H2]. right. rewrite H1. split; [reflexivity|]. cbn [fst snd]. split; [reflexivity | exact H2].
Qed.
Lemma call_follows m m' o : (forall o, In o (m_orders m) -> 0 < lo_price o) -> m_better g m m' -> follows m m' o.
Proof.
  intros P B. destruct o; [apply update_follows | apply market_follows | apply limit_follows | apply cancel_follows | apply amend_follows | apply check_follows]; assumption.
Qed.
End Cheap.

(** ** Histories *)
Lemma repriced_valid c mk tk g : valid_config c -> cheaper mk tk g c -> valid_config (repriced mk tk g c).
Proof. intros V (_ & _ & G). destruct V. split; cbn; assumption || lia. Qed.
Lemma better_machine g e e' : better_off g e e' <-> m_better g (machine_of e) (machine_of e').
Proof.
  unfold better_off, m_better, machine_of, statement_of. cbn [m_book l_qty l_entry l_due l_cash l_paid m_held m_reserved m_orders m_bid m_ask m_time m_next].
  unfold wealth_of. intuition lia.
Qed.
Lemma prices_positive c e : valid_config c -> reachable c e -> forall o, In o (m_orders (machine_of e)) -> 0 < lo_price o.
Proof. intros V R o H. apply (good_of_inv c e (so_inv _ _ (reachable_sound c e V R)) o H). Qed.

Lemma cheap_step c mk tk g e e' o : valid_config c -> cheaper mk tk g c -> reachable c e -> reachable (repriced mk tk g c) e' -> better_off g e e' ->
  match step c e o with
  | Done (e1, r) => refused r \/ exists e1', step (repriced mk tk g c) e' o = Done (e1', r) /\ better_off g e1 e1'
  | Panic w => In w avoided \/ step (repriced mk tk g c) e' o = Panic w
  end.
Proof.
  intros V K R R' B. pose proof (repriced_valid _ _ _ _ V K) as V'. apply better_machine in B.
  pose proof (call_follows c mk tk g V K _ _ o (prices_positive c e V R) B) as F. unfold follows in F.
  pose proof (crash_step c e o V R) as H. destruct (step c e o) as [[e1 r]|w] eqn:E; rewrite H in F.
  - rewrite (machine_step _ _ _ _ _ V R E) in F. cbn [fst snd] in F. destruct F as [F|(F1 & F2 & F3)]; [left; exact F|]. right.
    apply (returns_iff _ _ _ V' R') in F1 as (e1' & r' & E'). rewrite (machine_step _ _ _ _ _ V' R' E') in F2, F3. cbn [fst snd] in F2, F3. subst r'.
    exists e1'. split; [exact E' | apply better_machine; exact F3].
  - destruct F as [F|F]; [left; exact F|]. right. apply (crash_iff _ _ _ _ V' R'). exact F.
Qed.
Lemma cheap_run c mk tk g ops : valid_config c -> cheaper mk tk g c -> forall e e' e1 outs,
  reachable c e -> reachable (repriced mk tk g c) e' -> better_off g e e' -> run c e ops = Done (e1, outs) -> ~ Exists refused outs ->
  exists e1', run (repriced mk tk g c) e' ops = Done (e1', outs) /\ better_off g e1 e1'.
Proof.
  intros V K. induction ops as [|o ops IH]; intros e e' e1 outs R R' B H N; cbn [run] in *; [injection H as <- <-; exists e'; split; [reflexivity | exact B]|].
  pose proof (cheap_step c mk tk g e e' o V K R R' B) as S. destruct (step c e o) as [[e2 r]|w] eqn:E; [|discriminate]. cbn [bind] in H.
  destruct (run c e2 ops) as [[e3 rs]|w] eqn:E2; [|discriminate]. cbn [bind] in H. injection H as <- <-.
  destruct S as [S|(e2' & S & B2)]; [exfalso; apply N; left; exact S|].
  destruct (IH e2 e2' e3 rs (reach_step _ _ _ _ _ R E) (reach_step _ _ _ _ _ R' S) B2 E2 (fun x => N (Exists_cons_tl _ x))) as (e3' & E3 & B3).
  rewrite S. cbn [bind]. rewrite E3. exists e3'. split; [reflexivity | exact B3].
Qed.
Lemma cheap_init c mk tk g e0 e0' : cheaper mk tk g c -> init c = Done e0 -> init (repriced mk tk g c) = Done e0' -> better_off g e0 e0'.
Proof.
  intros K H H'. apply better_machine. rewrite (machine_init _ _ H), (machine_init _ _ H'). unfold m_better, m_start, ledger_start. cbn.
  repeat split; lia.
Qed.
Lemma cheap_history c mk tk g ops e outs :
  valid_config c -> cheaper mk tk g c -> history c ops e outs -> ~ Exists refused outs ->
  exists e', history (repriced mk tk g c) ops e' outs /\ better_off g e e'.
Proof.
  intros V K (e0 & I & H) N. destruct (init_total _ (repriced_valid _ _ _ _ V K)) as [e0' I'].
  assert (R : reachable c e0) by (exists [], [], e0; split; [exact I | reflexivity]).
  assert (R' : reachable (repriced mk tk g c) e0') by (exists [], [], e0'; split; [exact I' | reflexivity]).
  destruct (cheap_run c mk tk g ops V K e0 e0' e outs R R' (cheap_init _ _ _ _ _ _ K I I') H N) as (e1 & E & B).
  exists e1. split; [exists e0'; auto | exact B].
Qed.
Lemma cheap_same c mk tk g ops e outs e' outs' :
  valid_config c -> cheaper mk tk g c -> history c ops e outs -> ~ Exists refused outs -> history (repriced mk tk g c) ops e' outs' ->
  outs' = outs /\ better_off g e e'.
Proof.
  intros V K H N (e0' & I' & H'). destruct (cheap_history c mk tk g ops e outs V K H N) as (e2 & (e0 & I & H2) & B).
  rewrite I' in I. injection I as <-. rewrite H' in H2. injection H2 as <- <-. auto.
Qed.
Lemma cheap_call c mk tk g ops e outs e' outs' o :
  valid_config c -> cheaper mk tk g c -> history c ops e outs -> ~ Exists refused outs -> history (repriced mk tk g c) ops e' outs' ->
  match step c e o with
  | Done (e1, r) => refused r \/ exists e1', step (repriced mk tk g c) e' o = Done (e1', r) /\ better_off g e1 e1'
  | Panic w => In w avoided \/ step (repriced mk tk g c) e' o = Panic w
  end.
Proof.
  intros V K H N H'. destruct (cheap_same _ _ _ _ _ _ _ _ _ V K H N H') as [-> B].
  apply cheap_step; [exact V | exact K | exists ops, outs; exact H | exists ops, outs; exact H' | exact B].
Qed.
Lemma cheap_answer c mk tk g ops e outs e' outs' o e1 r :
  valid_config c -> cheaper mk tk g c -> history c ops e outs -> ~ Exists refused outs -> history (repriced mk tk g c) ops e' outs' ->
  step c e o = Done (e1, r) ->
  refused r \/ exists e1', step (repriced mk tk g c) e' o = Done (e1', r) /\ better_off g e1 e1'.
Proof. intros V K H N H' E. pose proof (cheap_call c mk tk g ops e outs e' outs' o V K H N H') as P. rewrite E in P. exact P. Qed.
Lemma cheap_refuses c mk tk g ops e outs e' outs' o e1 r e1' r' :
  valid_config c -> cheaper mk tk g c -> history c ops e outs -> ~ Exists refused outs -> history (repriced mk tk g c) ops e' outs' ->
  step c e o = Done (e1, r) -> step (repriced mk tk g c) e' o = Done (e1', r') -> refused r' -> refused r.
Proof.
  intros V K H N H' E E' F. destruct (cheap_answer c mk tk g ops e outs e' outs' o e1 r V K H N H' E) as [P|(x & P & _)]; [exact P|].
  rewrite E' in P. injection P as _ <-. exact F.
Qed.
Lemma cheap_panic c mk tk g ops e outs e' outs' o w :
  valid_config c -> cheaper mk tk g c -> history c ops e outs -> ~ Exists refused outs -> history (repriced mk tk g c) ops e' outs' ->
  step c e o = Panic w -> In w avoided \/ step (repriced mk tk g c) e' o = Panic w.
Proof. intros V K H N H' E. pose proof (cheap_call c mk tk g ops e outs e' outs' o V K H N H') as P. rewrite E in P. exact P. Qed.
Lemma cheap_new_panic c mk tk g ops e outs e' outs' o w :
  valid_config c -> cheaper mk tk g c -> history c ops e outs -> ~ Exists refused outs -> history (repriced mk tk g c) ops e' outs' ->
  step (repriced mk tk g c) e' o = Panic w ->
  (exists w', step c e o = Panic w') \/ exists e1 r, step c e o = Done (e1, r) /\ refused r.
Proof.
  intros V K H N H' E. pose proof (cheap_call c mk tk g ops e outs e' outs' o V K H N H') as P.
  destruct (step c e o) as [[e1 r]|w']; [|left; eauto]. right. exists e1, r. split; [reflexivity|].
  destruct P as [P|(x & P & _)]; [exact P|]. rewrite E in P. discriminate.
Qed.
