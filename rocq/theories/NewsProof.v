(** The same news told by different kinds of market updates. *)
From Verif Require Import ProofBase StepLemmas BookLemmas Inv Types Accounting Filters Position OrderBook OrderMargin MarketUpdate Exchange Spec SpecConfig SpecMarket SpecFlow SpecMargin SpecPanic
  SpecMachine SpecCrash MachineProof CrashProof MarginProof OrderProof HealthProof ReliefProof SpecNews.

Lemma meet_alike c ru ru' m o : time_of ru = time_of ru' -> touched ru o = touched ru' o -> m_meet c ru m o = m_meet c ru' m o.
Proof. intros T E. unfold m_meet. rewrite E, T. reflexivity. Qed.
Lemma meets_alike c ru ru' l : time_of ru = time_of ru' -> (forall o, In o l -> touched ru o = touched ru' o) -> forall m, fold_left (m_meet c ru) l m = fold_left (m_meet c ru') l m.
Proof.
  intros T. induction l as [|o l IH]; intros E m; [reflexivity|]. cbn [fold_left]. rewrite (meet_alike c ru ru' m o T (E o (or_introl eq_refl))). apply IH. intros x I. apply E. right. exact I.
Qed.
Lemma reports_alike s ru ru' l : time_of ru = time_of ru' -> (forall o, In o l -> touched ru o = touched ru' o) -> reports s ru l = reports s ru' l.
Proof.
  intros T. induction l as [|o l IH]; intros E; [reflexivity|]. unfold reports in *. cbn [flat_map]. rewrite IH by (intros x I; apply E; right; exact I). rewrite (E o (or_introl eq_refl)), T. reflexivity.
Qed.
Lemma quote_alike m ru ru' : quote_of ru = quote_of ru' -> time_of ru = time_of ru' -> with_quote m ru = with_quote m ru'.
Proof. intros Q T. unfold with_quote. rewrite Q, T. reflexivity. Qed.
Lemma update_alike c m ru ru' : same_news ru ru' (m_orders m) -> m_update c m ru = m_update c m ru'.
Proof.
  intros (Q & T & E). unfold m_update. rewrite (quote_alike m ru ru' Q T). destruct (m_due c _); [reflexivity|]. unfold m_meet_all.
  rewrite (meets_alike c ru ru' _ T), (reports_alike (c_scale c) ru ru' _ T); [reflexivity|exact E|exact E].
Qed.
Lemma news_same c e ru ru' f r f' r' : valid_config c -> reachable c e -> same_news ru ru' (ex_active e) ->
  step c e (OpUpdate ru) = Done (f, r) -> step c e (OpUpdate ru') = Done (f', r') -> machine_of f' = machine_of f /\ r' = r.
Proof.
  intros V R N S S'. destruct (exec_ok c e _ f _ V R S) as [_ K]. destruct (exec_ok c e _ f' _ V R S') as [_ K']. cbn [m_call] in K, K'.
  rewrite (update_alike c (machine_of e) ru ru' N), K' in K. split; [exact (f_equal fst K) | exact (f_equal snd K)].
Qed.

(** ** A quote and a trade *)
Lemma first_all l : first_of l = None <-> forall x, In x l -> x = None.
Proof.
  induction l as [|y l IH]; cbn [first_of In]; [intuition|]. destruct y.
  - split; [discriminate|]. intros H. specialize (H _ (or_introl eq_refl)). discriminate.
  - rewrite IH. split; [intros H x [<-|I]; auto | intros H x I; auto].
Qed.
Lemma trade_crash_alike c ru t l : time_of ru = tr_ts t -> (forall o, In o l -> touched ru o = touched (RTrade t) o) -> (c_dbg c = true -> 0 < tr_qty t) ->
  forall m, meet_all_crash c ru m l = None -> meet_all_crash c (RTrade t) m l = None.
Proof.
  intros T E P. induction l as [|o l IH]; intros m H; [reflexivity|]. cbn [meet_all_crash] in *. rewrite first_all in *. intros x I.
  assert (A : m_meet c (RTrade t) m o = m_meet c ru m o) by (symmetry; apply meet_alike; [exact T | exact (E o (or_introl eq_refl))]).
  destruct I as [<-|[<-|[]]].
  - pose proof (H _ (or_introl eq_refl)) as H0. unfold meet_crash in H0 |- *. rewrite first_all in H0 |- *. intros x [<-|[<-|[]]].
    + unfold in_debug, demand. destruct (c_dbg c); [|reflexivity]. destruct (Z.ltb_spec 0 (tr_qty t)); [reflexivity|]. specialize (P eq_refl). lia.
    + specialize (H0 _ (or_intror (or_introl eq_refl))). rewrite (E o (or_introl eq_refl)) in H0. rewrite A. exact H0.
  - rewrite A. apply IH; [intros x I; apply E; right; exact I|]. apply H. right. left. reflexivity.
Qed.
Lemma no_fills c b m : m_meet_all c (RBba b) m = m.
Proof. unfold m_meet_all. generalize (m_orders m). intros l. revert m. induction l as [|o l IH]; intros m; [reflexivity|]. exact (IH m). Qed.
Lemma no_reports s b l : reports s (RBba b) l = [].
Proof. induction l as [|o l IH]; [reflexivity|]. exact IH. Qed.
Lemma two_calls c e ru b t f r : valid_config c -> reachable c e -> match ru with RBba _ => False | _ => True end -> quote_of ru = Some (bb_bid b, bb_ask b) -> time_of ru = tr_ts t ->
  (forall o, In o (ex_active e) -> touched ru o = touched (RTrade t) o) -> fit c b t -> step c e (OpUpdate ru) = Done (f, Ok r) ->
  exists g, run c e [OpUpdate (RBba b); OpUpdate (RTrade t)] = Done (g, [Ok (OutUpdates []); Ok r]) /\ machine_of g = machine_of f.
Proof.
  intros V R NB Q T E F S. destruct (exec_ok c e _ f _ V R S) as [C K]. cbn [m_call m_crash] in C, K.
  set (m := machine_of e) in *. assert (D : m_due c (with_quote m ru) = m_due c (with_quote m (RBba b))) by (unfold m_due, with_quote, m_pos; rewrite Q; reflexivity).
  unfold m_update in K. rewrite first_all in C. specialize (C _ (or_intror (or_introl eq_refl))). unfold update_crash in C. rewrite first_all in C. specialize (C _ (or_intror (or_introl eq_refl))).
  destruct (m_due c (with_quote m ru)) eqn:D0; [discriminate|]. symmetry in D.
  assert (W : with_quote (with_quote m (RBba b)) (RTrade t) = with_quote m ru) by (unfold with_quote; rewrite Q, T; reflexivity).
  destruct (ok_exec c e (OpUpdate (RBba b)) (with_quote m (RBba b)) (Ok (OutUpdates [])) V R) as (e1 & S1 & M1).
  { cbn [m_crash build_crash]. fold m. unfold update_crash. rewrite D. cbn [check_crash data_valid first_of]. unfold in_debug, demand. destruct (c_dbg c) eqn:G; [|reflexivity].
    destruct (F G) as (F1 & _). rewrite F1. reflexivity. }
  { cbn [m_call]. fold m. unfold m_update. rewrite D, no_fills, no_reports. reflexivity. }
  pose proof (reach_step _ _ _ _ _ R S1) as R1.
  assert (O : m_orders (with_quote m ru) = ex_active e) by reflexivity.
  assert (X : m_meet_all c (RTrade t) (with_quote m ru) = m_meet_all c ru (with_quote m ru)) by (unfold m_meet_all; symmetry; apply meets_alike; [exact T | rewrite O; exact E]).
  destruct (ok_exec c e1 (OpUpdate (RTrade t)) (machine_of f) (Ok r) V R1) as (g & S2 & M2).
  { cbn [m_crash build_crash]. rewrite M1. unfold update_crash. rewrite W, D0. cbn [data_valid]. rewrite first_all. intros x [<-|[<-|[]]]; [reflexivity|]. rewrite first_all. intros x [<-|[<-|[]]].
    - unfold in_debug, demand. destruct (c_dbg c) eqn:G; [|reflexivity]. destruct (F G) as (_ & F2 & _). rewrite F2. reflexivity.
    - assert (C' : first_of [meet_all_crash c ru (with_quote m ru) (m_orders (with_quote m ru));
                 in_debug c (demand (m_reserved (m_meet_all c ru (with_quote m ru)) =? need c (m_orders (m_meet_all c ru (with_quote m ru))) (m_pos (m_meet_all c ru (with_quote m ru)))) PEndMarginDebug);
                 demand (0 <=? m_free (m_meet_all c ru (with_quote m ru))) PWalletNegative] = None) by (destruct ru; [contradiction NB | exact C | exact C | exact C]).
      unfold check_crash. cbv zeta. rewrite X. rewrite first_all in C' |- *. intros x [<-|I].
      + apply (trade_crash_alike c ru t); [exact T | rewrite O; exact E | intros G; apply (F G) | apply C'; left; reflexivity].
      + apply C'. right. exact I. }
  { cbn [m_call]. rewrite M1. unfold m_update. rewrite W, D0, X. rewrite <- K. f_equal. f_equal. f_equal. symmetry. apply reports_alike; [exact T | rewrite O; exact E]. }
  exists g. split; [|exact M2]. cbn [run]. rewrite S1. cbn [bind]. rewrite S2. reflexivity.
Qed.

Lemma news_one_trade c e t b fl f r : valid_config c -> reachable c e -> fit c b t -> step c e (OpUpdate (RSmart [t] b fl)) = Done (f, Ok r) ->
  exists g, run c e [OpUpdate (RBba b); OpUpdate (RTrade t)] = Done (g, [Ok (OutUpdates []); Ok r]) /\ machine_of g = machine_of f.
Proof.
  intros V R F S. apply (two_calls c e (RSmart [t] b fl)); [exact V | exact R | exact I | reflexivity | reflexivity | | exact F | exact S]. intros o _. cbn [touched existsb]. unfold crossing_qty. cbn [filter].
  destruct (crosses o t); cbn [orb map]; [|reflexivity]. unfold sumZ. cbn [fold_right]. rewrite Z.add_0_r. reflexivity.
Qed.
Lemma news_candle c e k ts sd t f r : valid_config c -> reachable c e -> sweeps k sd (ex_active e) t -> fit c (quote_in k ts) t -> step c e (OpUpdate (RCandle k)) = Done (f, Ok r) ->
  exists g, run c e [OpUpdate (RBba (quote_in k ts)); OpUpdate (RTrade t)] = Done (g, [Ok (OutUpdates []); Ok r]) /\ machine_of g = machine_of f.
Proof.
  intros V R (T & P & B) F S. apply (two_calls c e (RCandle k)); [exact V | exact R | exact I | reflexivity | symmetry; exact T | | exact F | exact S]. intros o In_o. destruct (B o In_o) as [Sd L]. cbn [touched]. unfold crosses. rewrite Sd.
  destruct sd; destruct P as [-> ->]; rewrite Z.min_r by exact L; reflexivity.
Qed.
Lemma crossing_empty o l : existsb (crosses o) l = false -> crossing_qty o l = 0.
Proof.
  induction l as [|t l IH]; [reflexivity|]. cbn [existsb]. intros H. apply orb_false_elim in H as [H1 H2]. unfold crossing_qty in *. cbn [filter]. rewrite H1. auto.
Qed.
Lemma candle_covered k l b fl book : covers k l book -> (forall o, In o book -> 0 < lo_rem o) -> forall o, In o book -> touched (RCandle k) o = touched (RSmart l b fl) o.
Proof.
  intros [W C] P o I. specialize (P o I). specialize (C o I). cbn [touched]. destruct (beyond o _) eqn:B.
  - specialize (C eq_refl). destruct (existsb (crosses o) l) eqn:X; [|rewrite (crossing_empty o l X) in C; lia]. rewrite Z.min_r by exact C. reflexivity.
  - destruct (existsb (crosses o) l) eqn:X; [|reflexivity]. apply existsb_exists in X as (t & It & X). specialize (W t It). unfold crosses, beyond in *.
    destruct (lo_side o), (tr_side t); try discriminate; apply Z.ltb_lt in X; apply Z.ltb_ge in B; lia.
Qed.
Lemma news_candles c e k l b fl f r f' r' : valid_config c -> reachable c e -> covers k l (ex_active e) -> quote_of (RCandle k) = quote_of (RSmart l b fl) -> time_of (RCandle k) = time_of (RSmart l b fl) ->
  step c e (OpUpdate (RCandle k)) = Done (f, r) -> step c e (OpUpdate (RSmart l b fl)) = Done (f', r') -> machine_of f' = machine_of f /\ r' = r.
Proof.
  intros V R C Q T. apply news_same; auto. split; [exact Q|]. split; [exact T|]. apply candle_covered; [exact C|]. intros o I. apply (inv_ok _ _ (reachable_inv c e (vc_max _ V) R) o I).
Qed.
