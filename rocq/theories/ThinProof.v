(** Updates of which nothing comes can be left out. *)
From Verif Require Import ProofBase Types Accounting Position OrderBook OrderMargin MarketUpdate Exchange Spec SpecConfig SpecMarket SpecFlow SpecMargin
  SpecMachine SpecCrash MachineProof CrashProof OrderProof HealthProof Tracker SpecTrack TrackProof SpecThin.

Lemma reports_nil s ru l : reports s ru l = [] -> forall o, In o l -> touched ru o = None.
Proof.
  unfold reports. induction l as [|x l IH]; [intros _ o []|]. cbn [flat_map]. destruct (touched ru x) eqn:E; [discriminate|]. intros H o [<-|O]; [exact E | exact (IH H o O)].
Qed.
Lemma meet_none c ru l : (forall o, In o l -> touched ru o = None) -> forall m, fold_left (m_meet c ru) l m = m.
Proof.
  induction l as [|x l IH]; intros H m; [reflexivity|]. cbn [fold_left]. unfold m_meet at 2. rewrite (H x (or_introl eq_refl)). apply IH. intros o O. apply H. right; exact O.
Qed.
Lemma nothing_is c e ru e1 : valid_config c -> reachable c e -> step c e (OpUpdate ru) = Done (e1, Ok (OutUpdates [])) ->
  machine_of e1 = with_quote (machine_of e) ru.
Proof.
  intros V R E. pose proof (machine_step c e _ _ _ V R E) as M. cbn [m_call] in M. unfold m_update in M.
  destruct (m_due c (with_quote (machine_of e) ru)); [discriminate|]. pose proof (f_equal fst M) as M1. pose proof (f_equal snd M) as M2. cbn [fst snd] in M1, M2.
  injection M2 as M2. rewrite <- M1. unfold m_meet_all. apply meet_none. exact (reports_nil _ _ _ M2).
Qed.
Lemma quote_twice m a b : quote_of b <> None \/ quote_of a = None -> with_quote (with_quote m a) b = with_quote m b.
Proof.
  intros H. unfold with_quote. destruct m; cbn. destruct (quote_of b) as [q|]; [reflexivity|]. destruct H as [H|H]; [contradiction|]. rewrite H. reflexivity.
Qed.

(** The next update makes the machines equal, whatever it does. *)
Lemma exec_quote c m m' ru : with_quote m ru = with_quote m' ru -> m_exec c m (OpUpdate ru) = m_exec c m' (OpUpdate ru).
Proof. intros H. unfold m_exec. cbn [m_crash m_call]. unfold update_crash, m_update. rewrite H. reflexivity. Qed.
Lemma play_quote c m m' ru rest : with_quote m ru = with_quote m' ru -> m_play c m (OpUpdate ru :: rest) = m_play c m' (OpUpdate ru :: rest).
Proof. intros H. cbn [m_play]. rewrite (exec_quote c m m' ru H). reflexivity. Qed.

Lemma thin_quote c us ru : valid_config c -> replaces ru us -> forall e e1 outs, reachable c e ->
  run c e (map OpUpdate us) = Done (e1, outs) -> Forall nothing outs ->
  with_quote (machine_of e1) ru = with_quote (machine_of e) ru /\ reachable c e1.
Proof.
  intros V. induction us as [|u us IH]; intros P e e1 outs R; cbn [map run].
  - intros H _. injection H as <- _. split; [reflexivity | exact R].
  - destruct (step c e (OpUpdate u)) as [[e2 r]|w] eqn:E; cbn [bind]; [|discriminate].
    destruct (run c e2 (map OpUpdate us)) as [[e3 rs]|w] eqn:E2; cbn [bind]; [|discriminate]. intros H F. injection H as <- <-. inversion F as [|? ? F1 F2]; subst.
    unfold nothing in F1. subst r. pose proof (reach_step _ _ _ _ _ R E) as R2.
    assert (P2 : replaces ru us) by (destruct P as [P|P]; [left; exact P | right; intros x X; apply P; right; exact X]).
    destruct (IH P2 e2 e3 rs R2 E2 F2) as [I1 I2]. split; [|exact I2]. rewrite I1, (nothing_is c e u e2 V R E). apply quote_twice.
    destruct P as [P|P]; [left; exact P | right; apply P; left; reflexivity].
Qed.
Lemma thin_run c e us e1 outs ru rest : valid_config c -> reachable c e -> run c e (map OpUpdate us) = Done (e1, outs) -> Forall nothing outs ->
  replaces ru us -> seen (run c e1 (OpUpdate ru :: rest)) = seen (run c e (OpUpdate ru :: rest)).
Proof.
  intros V R E F P. destruct (thin_quote c us ru V P e e1 outs R E F) as [Q R1]. rewrite !exec_run by assumption. apply play_quote, Q.
Qed.

(** ** In a history *)
Lemma run_split c : forall a b e e' outs, run c e (a ++ b) = Done (e', outs) ->
  exists e1 o1 o2, run c e a = Done (e1, o1) /\ run c e1 b = Done (e', o2) /\ outs = o1 ++ o2 /\ length o1 = length a.
Proof.
  induction a as [|x a IH]; intros b e e' outs; cbn [app run].
  - intros H. exists e, [], outs. auto.
  - destruct (step c e x) as [[e1 r]|w]; cbn [bind]; [|discriminate]. destruct (run c e1 (a ++ b)) as [[e2 rs]|w] eqn:E; cbn [bind]; [|discriminate].
    intros H. injection H as <- <-. destruct (IH _ _ _ _ E) as (e3 & o1 & o2 & H1 & H2 & H3 & H4). exists e3, (r :: o1), o2. rewrite H1. cbn [bind]. subst rs. cbn [length app]. rewrite H4. auto.
Qed.
Lemma run_join c : forall a b e e1 e' o1 o2, run c e a = Done (e1, o1) -> run c e1 b = Done (e', o2) -> run c e (a ++ b) = Done (e', o1 ++ o2).
Proof.
  induction a as [|x a IH]; intros b e e1 e' o1 o2; cbn [app run].
  - intros H. injection H as <- <-. auto.
  - destruct (step c e x) as [[e2 r]|w]; cbn [bind]; [|discriminate]. destruct (run c e2 a) as [[e3 rs]|w] eqn:E; cbn [bind]; [|discriminate].
    intros H H2. injection H as <- <-. rewrite (IH _ _ _ _ _ _ E H2). reflexivity.
Qed.
Lemma app_inj_len {A} : forall (a b x y : list A), length a = length b -> a ++ x = b ++ y -> a = b /\ x = y.
Proof.
  induction a as [|h a IH]; intros [|k b] x y L E; cbn in *; try discriminate; [auto|]. injection L as L. injection E as -> E. destruct (IH _ _ _ L E) as [-> ->]. auto.
Qed.
Lemma thin_history c before us ru after e outs o1 mid o2 : valid_config c ->
  history c (before ++ map OpUpdate us ++ OpUpdate ru :: after) e outs -> outs = o1 ++ mid ++ o2 -> length o1 = length before -> length mid = length us ->
  Forall nothing mid -> replaces ru us ->
  exists e', history c (before ++ OpUpdate ru :: after) e' (o1 ++ o2) /\ machine_of e' = machine_of e.
Proof.
  intros V (e0 & Hi & Hr) -> L1 L2 F P. destruct (run_split _ _ _ _ _ _ Hr) as (ea & x1 & x2 & H1 & H2 & H3 & H4).
  destruct (run_split _ _ _ _ _ _ H2) as (eb & y1 & y2 & K1 & K2 & K3 & K4). rewrite map_length in K4. subst x2.
  assert (X : x1 = o1 /\ y1 ++ y2 = mid ++ o2) by (apply app_inj_len; [lia | congruence]). destruct X as [-> X].
  assert (Y : y1 = mid /\ y2 = o2) by (apply app_inj_len; [lia | exact X]). destruct Y as [-> ->].
  assert (Ra : reachable c ea) by (exists before, o1, e0; auto).
  pose proof (thin_run c ea us eb mid ru after V Ra K1 F P) as T. rewrite K2 in T. cbn [seen] in T.
  destruct (run c ea (OpUpdate ru :: after)) as [[e' o']|w] eqn:E; [|discriminate]. cbn [seen] in T. assert (T1 : (machine_of e, o2) = (machine_of e', o')) by (apply (f_equal (fun x => match x with Done p => p | Panic _ => (machine_of e', o') end)) in T; exact T).
  pose proof (f_equal fst T1) as T2. pose proof (f_equal snd T1) as T3. cbn [fst snd] in T2, T3. subst o'.
  exists e'. split; [|symmetry; exact T2]. exists e0. split; [exact Hi|]. exact (run_join _ _ _ _ _ _ _ _ H1 E).
Qed.

(** ** The same quote again *)
Lemma full_close k s l f : l_qty l <> 0 -> f_side f = (if 0 <? l_qty l then Sell else Buy) -> f_qty f = Z.abs (l_qty l) -> l_qty (apply_fill k s l f) = 0.
Proof.
  intros N S Q. unfold apply_fill. cbv zeta. assert (X : signed_qty f = - l_qty l). { unfold signed_qty. rewrite S, Q. destruct (Z.ltb_spec 0 (l_qty l)); lia. }
  rewrite X. replace (l_qty l =? 0) with false by lia. replace (Z.sgn (l_qty l) =? Z.sgn (- l_qty l)) with false by lia. cbn [l_qty]. lia.
Qed.
Lemma due_pos c m : m_due c m = true -> m_pos m <> 0.
Proof. unfold m_due. cbv zeta. destruct (Z.ltb_spec 0 (m_pos m)); [intros _; lia|]. destruct (Z.ltb_spec (m_pos m) 0); [intros _; lia | discriminate]. Qed.
Lemma flat_not_due c m : m_pos m = 0 -> m_due c m = false.
Proof. intros H. unfold m_due. rewrite H. reflexivity. Qed.
Lemma quote_meets_none c b l m : fold_left (m_meet c (RBba b)) l m = m.
Proof. apply meet_none. reflexivity. Qed.
Lemma quote_reports_none s b l : reports s (RBba b) l = [].
Proof. unfold reports. induction l as [|x l IH]; [reflexivity | exact IH]. Qed.
Lemma again_quote c m b m' r : m_update c m (RBba b) = (m', r) -> with_quote m' (RBba b) = m' /\ m_due c m' = false.
Proof.
  unfold m_update. cbv zeta. destruct (m_due c (with_quote m (RBba b))) eqn:D; intros H; pose proof (f_equal fst H) as H1; cbn [fst] in H1; subst m'.
  - split; [reflexivity|]. apply flat_not_due. unfold m_pos, with_id, m_fill, taken. cbn [m_book]. pose proof (due_pos _ _ D) as N. unfold m_pos in *. apply full_close; [exact N | reflexivity | reflexivity].
  - unfold m_meet_all. rewrite quote_meets_none. split; [reflexivity | exact D].
Qed.
Lemma first_none (a : option panic_site) l : first_of (a :: l) = None -> a = None /\ first_of l = None.
Proof. cbn [first_of]. destruct a; [discriminate | auto]. Qed.
Lemma repeat_quote c e b e1 r : valid_config c -> reachable c e -> step c e (OpUpdate (RBba b)) = Done (e1, r) ->
  exists e2, step c e1 (OpUpdate (RBba b)) = Done (e2, Ok (OutUpdates [])) /\ machine_of e2 = machine_of e1.
Proof.
  intros V R E. pose proof (machine_step c e _ _ _ V R E) as M. cbn [m_call] in M. destruct (again_quote _ _ _ _ _ M) as [Q D].
  pose proof (crash_step c e (OpUpdate (RBba b)) V R) as C. rewrite E in C. cbn [m_crash] in C. apply first_none in C as [C1 C2]. apply first_none in C2 as [C2 _].
  unfold update_crash in C2. cbv zeta in C2. apply first_none in C2 as [C2 _].
  pose proof (reach_step _ _ _ _ _ R E) as R1.
  pose proof (exec_step c e1 (OpUpdate (RBba b)) V R1) as S. unfold m_exec in S.
  assert (K : m_crash c (machine_of e1) (OpUpdate (RBba b)) = None). { cbn [m_crash first_of]. rewrite C1. unfold update_crash. cbv zeta. rewrite Q, D. cbn [first_of check_crash]. rewrite C2. reflexivity. }
  rewrite K in S. cbn [m_call] in S. unfold m_update in S. cbv zeta in S. rewrite Q, D in S. unfold m_meet_all in S. rewrite quote_meets_none, quote_reports_none in S.
  destruct (step c e1 (OpUpdate (RBba b))) as [[e2 r2]|w]; [|discriminate]. cbn [seen] in S.
  assert (T : (machine_of e2, r2) = (machine_of e1, Ok (OutUpdates []))) by (apply (f_equal (fun x => match x with Done p => p | Panic _ => (machine_of e2, r2) end)) in S; exact S).
  pose proof (f_equal fst T) as T1. pose proof (f_equal snd T) as T2. cbn [fst snd] in T1, T2. subst r2. exists e2. split; [reflexivity | exact T1].
Qed.

(** ** The statistics *)
Lemma combine_app {A B} : forall (a : list A) (x : list B) b y, length a = length x -> combine (a ++ b) (x ++ y) = combine a x ++ combine b y.
Proof. induction a as [|h a IH]; intros [|k x] b y L; try discriminate; [reflexivity|]. cbn. rewrite IH by (injection L; auto). reflexivity. Qed.
Lemma run_length c : forall ops e e' outs, run c e ops = Done (e', outs) -> length outs = length ops.
Proof.
  induction ops as [|o ops IH]; intros e e' outs; cbn [run]; [intros H; injection H as _ <-; reflexivity|].
  destruct (step c e o) as [[e1 r]|w]; cbn [bind]; [|discriminate]. destruct (run c e1 ops) as [[e2 rs]|w] eqn:E; cbn [bind]; [|discriminate].
  intros H. injection H as _ <-. cbn [length]. rewrite (IH _ _ _ E). reflexivity.
Qed.
Lemma tally_app f a b : tally f (a ++ b) = tally f a + tally f b.
Proof. unfold tally, sumZ. induction a as [|x a IH]; cbn [app map fold_right]; [lia|]. rewrite IH. lia. Qed.
Definition idle (h : call) : Prop := exists u, h = (OpUpdate u, Ok (OutUpdates [])).
Lemma idle_mid : forall us mid, length mid = length us -> Forall nothing mid -> Forall idle (combine (map OpUpdate us) mid).
Proof.
  induction us as [|u us IH]; intros [|r mid] L F; try discriminate; cbn [map combine]; [constructor|]. inversion F as [|? ? F1 F2]; subst. constructor; [exists u; unfold nothing in F1; subst r; reflexivity|].
  apply IH; [injection L; auto | exact F2].
Qed.
Lemma tally_idle f l : (forall u, f (OpUpdate u, Ok (OutUpdates [])) = 0) -> Forall idle l -> tally f l = 0.
Proof. intros Z0. induction 1 as [|h l (u & ->) F IH]; [reflexivity|]. unfold tally in *. cbn [map sumZ fold_right]. rewrite Z0. exact IH. Qed.
Definition same_watch (w w' : watch) : Prop := w_seen w = w_seen w' /\ w_fills w = w_fills w'.
Lemma watch_idle c : forall us mid, length mid = length us -> Forall nothing mid -> forall w,
  same_watch (fold_left (watch_call c) (combine (map OpUpdate us) mid) w) w /\
  ((forall u, In u us -> quote_of u = None) -> fold_left (watch_call c) (combine (map OpUpdate us) mid) w = w).
Proof.
  induction us as [|u us IH]; intros [|r mid] L F w; try discriminate; cbn [map combine fold_left]; [split; [split; reflexivity | reflexivity]|].
  inversion F as [|? ? F1 F2]; subst. unfold nothing in F1. subst r. injection L as L. destruct (IH mid L F2 (watch_call c w (OpUpdate u, Ok (OutUpdates [])))) as [I1 I2].
  cbn [watch_call fold_left] in *. split.
  - destruct I1 as [I1 I3]. unfold same_watch. rewrite I1, I3. unfold watch_quote. destruct (quote_of u) as [[x y]|]; split; reflexivity.
  - intros Q. rewrite I2 by (intros v X; apply Q; right; exact X). unfold watch_quote. rewrite (Q u (or_introl eq_refl)). reflexivity.
Qed.
Lemma watch_replaced c ru w w' r : same_watch w w' -> (quote_of ru <> None \/ w = w') ->
  r = Err (ERisk Liquidate) \/ (exists l, r = Ok (OutUpdates l)) -> watch_call c w (OpUpdate ru, r) = watch_call c w' (OpUpdate ru, r).
Proof.
  intros [S1 S2] Q A. destruct Q as [Q|<-]; [|reflexivity].
  assert (X : watch_quote w ru = watch_quote w' ru). { unfold watch_quote. destruct (quote_of ru) as [[x y]|]; [rewrite S1, S2; reflexivity | contradiction]. }
  destruct A as [->|[l ->]]; cbn [watch_call]; rewrite X; reflexivity.
Qed.
Lemma update_answer c e ru e1 r : valid_config c -> reachable c e -> step c e (OpUpdate ru) = Done (e1, r) -> r = Err (ERisk Liquidate) \/ (exists l, r = Ok (OutUpdates l)).
Proof.
  intros V R E. pose proof (machine_step c e _ _ _ V R E) as M. cbn [m_call] in M. unfold m_update in M. cbv zeta in M.
  destruct (m_due _ _); pose proof (f_equal snd M) as M2; cbn [snd] in M2; [left; symmetry; exact M2 | right; eexists; symmetry; exact M2].
Qed.
Lemma thin_calls c before us ru after e o1 mid o2 : valid_config c ->
  history c (before ++ map OpUpdate us ++ OpUpdate ru :: after) e (o1 ++ mid ++ o2) -> length o1 = length before -> length mid = length us ->
  Forall nothing mid -> replaces ru us ->
  reported_fills c (before ++ map OpUpdate us ++ OpUpdate ru :: after) (o1 ++ mid ++ o2) = reported_fills c (before ++ OpUpdate ru :: after) (o1 ++ o2).
Proof.
  intros V (e0 & Hi & Hr) L1 L2 F P. destruct (run_split _ _ _ _ _ _ Hr) as (ea & x1 & x2 & H1 & H2 & H3 & H4).
  destruct (run_split _ _ _ _ _ _ H2) as (eb & y1 & y2 & K1 & K2 & K3 & K4). rewrite map_length in K4. subst x2.
  assert (X : o1 = x1 /\ mid ++ o2 = y1 ++ y2) by (apply app_inj_len; [lia | exact H3]). destruct X as [<- X].
  assert (Y : mid = y1 /\ o2 = y2) by (apply app_inj_len; [lia | exact X]). destruct Y as [<- <-].
  assert (Rb : reachable c eb) by (exists (before ++ map OpUpdate us), (o1 ++ mid), e0; split; [exact Hi | exact (run_join _ _ _ _ _ _ _ _ H1 K1)]).
  unfold reported_fills, watched. rewrite !combine_app by (rewrite ?map_length; lia). rewrite !fold_left_app.
  cbn [run] in K2. destruct (step c eb (OpUpdate ru)) as [[e2 r]|w] eqn:E; cbn [bind] in K2; [|discriminate]. destruct (run c e2 after) as [[e3 rs]|w]; cbn [bind] in K2; [|discriminate].
  injection K2 as _ <-. cbn [combine fold_left]. pose proof (watch_idle c us mid L2 F (fold_left (watch_call c) (combine before o1) watch_start)) as [W1 W2].
  f_equal. f_equal. refine (watch_replaced c ru _ _ r W1 _ (update_answer c eb ru e2 r V Rb E)). destruct P as [P|P]; [left; exact P | right; exact (W2 P)].
Qed.
Lemma thin_counts c before us ru after e o1 mid o2 e' : valid_config c ->
  no_check (before ++ OpUpdate ru :: after) ->
  history c (before ++ map OpUpdate us ++ OpUpdate ru :: after) e (o1 ++ mid ++ o2) -> length o1 = length before -> length mid = length us ->
  Forall nothing mid -> replaces ru us -> history c (before ++ OpUpdate ru :: after) e' (o1 ++ o2) ->
  counts (ex_trk e') = counts (ex_trk e).
Proof.
  intros V N H L1 L2 F P H'. pose proof (thin_calls _ _ _ _ _ _ _ _ _ V H L1 L2 F P) as RF.
  assert (N2 : no_check (before ++ map OpUpdate us ++ OpUpdate ru :: after)).
  { intros o O. apply in_app_or in O as [O|O]; [apply N, in_or_app; left; exact O|]. apply in_app_or in O as [O|O]; [|apply N, in_or_app; right; exact O].
    apply in_map_iff in O as (u & <- & _). reflexivity. }
  destruct (history_tally _ _ _ _ (vc_max _ V) N2 H) as [A1 A2 A3 A4 A5 A6 A7 A8]. destruct (history_tally _ _ _ _ (vc_max _ V) N H') as [B1 B2 B3 B4 B5 B6 B7 B8].
  rewrite RF in A7, A8. unfold counts. rewrite A1, A2, A3, A4, A5, A6, A7, A8, B1, B2, B3, B4, B5, B6, B7, B8.
  rewrite !combine_app by (rewrite ?map_length; lia). rewrite !tally_app. pose proof (idle_mid us mid L2 F) as I.
  rewrite !(fun f Z0 => tally_idle f _ Z0 I) by reflexivity. reflexivity.
Qed.
