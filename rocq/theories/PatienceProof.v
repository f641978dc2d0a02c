(** A limit price that is harder to get. *)
From Verif Require Import ProofBase StepLemmas BookLemmas Inv Types Accounting Filters Position OrderBook OrderMargin MarketUpdate Exchange Spec SpecConfig SpecMarket SpecFlow SpecMargin SpecPanic
  SpecMachine SpecCrash MachineProof CrashProof MarginProof OrderProof HealthProof SpecBargain ReliefProof BargainProof SpecPatience.

Lemma beyond_mono a b p : lo_side b = lo_side a -> no_worse (lo_side a) (lo_price b) (lo_price a) -> beyond b p = true -> beyond a p = true.
Proof. intros E N. unfold beyond. rewrite E. destruct (lo_side a); cbn [no_worse] in N; rewrite !Z.ltb_lt; lia. Qed.
Lemma crosses_mono a b t : lo_side b = lo_side a -> no_worse (lo_side a) (lo_price b) (lo_price a) -> crosses b t = true -> crosses a t = true.
Proof. intros E N. pose proof (beyond_mono a b (tr_price t) E N). unfold crosses. rewrite E. destruct (lo_side a), (tr_side t); auto. Qed.
Lemma crossing_mono a b l : lo_side b = lo_side a -> no_worse (lo_side a) (lo_price b) (lo_price a) -> (forall t, In t l -> 0 <= tr_qty t) -> crossing_qty b l <= crossing_qty a l.
Proof.
  intros E N. induction l as [|t l IH]; intros P; [reflexivity|]. specialize (IH (fun t H => P t (or_intror H))). pose proof (P t (or_introl eq_refl)).
  pose proof (crosses_mono a b t E N) as C. unfold crossing_qty in *. cbn [filter]. destruct (crosses b t); [rewrite (C eq_refl)|destruct (crosses a t)]; cbn [map]; unfold sumZ in *; cbn [fold_right]; lia.
Qed.
Lemma crossing_nonneg a l : (forall t, In t l -> 0 <= tr_qty t) -> 0 <= crossing_qty a l.
Proof.
  induction l as [|t l IH]; intros P; [reflexivity|]. specialize (IH (fun t H => P t (or_intror H))). pose proof (P t (or_introl eq_refl)).
  unfold crossing_qty in *. cbn [filter]. destruct (crosses a t); cbn [map]; unfold sumZ in *; cbn [fold_right]; lia.
Qed.
Lemma touched_mono ru a b q : lo_side b = lo_side a -> lo_rem b = lo_rem a -> no_worse (lo_side a) (lo_price b) (lo_price a) -> real_trades ru -> 0 < lo_rem a ->
  touched ru b = Some q -> 0 <= q /\ exists q', touched ru a = Some q' /\ q <= q'.
Proof.
  intros E R N T P. destruct ru as [t|u|k|l x y]; cbn [touched real_trades] in *; try discriminate.
  - destruct (crosses b _) eqn:C; [|discriminate]. intros H. injection H as <-. rewrite (crosses_mono a b _ E N C). split; [lia|]. eexists. split; [reflexivity|]. lia.
  - rewrite E. destruct (beyond b _) eqn:C; [|discriminate]. intros H. injection H as <-. rewrite (beyond_mono a b _ E N C). split; [lia|]. eexists. split; [reflexivity|]. lia.
  - destruct (existsb (crosses b) l) eqn:C; [|discriminate]. intros H. injection H as <-.
    assert (CA : existsb (crosses a) l = true) by (apply existsb_exists in C as (t & I & C); apply existsb_exists; exists t; split; [exact I | exact (crosses_mono a b t E N C)]).
    rewrite CA. pose proof (crossing_nonneg b l T). pose proof (crossing_mono a b l E N T). split; [lia|]. eexists. split; [reflexivity|]. lia.
Qed.
Lemma touched_nonneg ru a q : real_trades ru -> 0 < lo_rem a -> touched ru a = Some q -> 0 <= q.
Proof. intros T P H. apply (touched_mono ru a a q); auto. destruct (lo_side a); cbn; lia. Qed.

Definition passive (c : config) (a : limit_order) (q : Z) : fill := {| f_side := lo_side a; f_qty := q; f_price := lo_price a; f_rate := ct_maker (c_spec c) |}.
Lemma first_none l x : first_of l = None -> In x l -> x = None.
Proof. induction l as [|y l IH]; cbn [first_of In]; [tauto|]. destruct y; [discriminate|]. intros H [<-|I]; auto. Qed.
Lemma met_some c e ru f r a q : valid_config c -> reachable c e -> ex_active e = [a] -> step c e (OpUpdate ru) = Done (f, Ok r) -> touched ru a = Some q -> 0 < q.
Proof.
  intros V R A S T. destruct (exec_ok c e _ f _ V R S) as [C K]. cbn [m_call m_crash] in C, K. unfold m_update in K. destruct (m_due c (with_quote (machine_of e) ru)) eqn:D; [discriminate|].
  apply (first_none _ (update_crash c (machine_of e) ru)) in C; [|right; left; reflexivity]. unfold update_crash in C. rewrite D in C.
  apply (first_none _ (check_crash c (with_quote (machine_of e) ru) ru)) in C; [|right; left; reflexivity].
  assert (X : meet_all_crash c ru (with_quote (machine_of e) ru) [a] = None).
  { unfold check_crash in C. change (m_orders (with_quote (machine_of e) ru)) with (ex_active e) in C. rewrite A in C. destruct ru; try discriminate T; (eapply first_none; [exact C | left; reflexivity]). }
  cbn [meet_all_crash] in X. apply (first_none _ (meet_crash c ru (with_quote (machine_of e) ru) a)) in X; [|left; reflexivity]. unfold meet_crash in X. rewrite T in X.
  eapply first_none in X; [|right; left; reflexivity]. eapply (first_none _ (demand (0 <? q) PFillNonPos)) in X; [|right; left; reflexivity].
  unfold demand in X. destruct (Z.ltb_spec 0 q); [assumption|discriminate].
Qed.
Lemma met c e ru f r a : valid_config c -> reachable c e -> ex_active e = [a] -> step c e (OpUpdate ru) = Done (f, Ok r) ->
  statement_of f = match touched ru a with None => statement_of e | Some q => apply_fill (c_kind c) (c_scale c) (statement_of e) (passive c a q) end.
Proof.
  intros V R A S. destruct (exec_ok c e _ f _ V R S) as [_ K]. cbn [m_call] in K. unfold m_update in K. destruct (m_due c _); [discriminate|].
  apply (f_equal fst) in K. cbn [fst] in K. unfold m_meet_all in K. change (m_orders (with_quote (machine_of e) ru)) with (ex_active e) in K. rewrite A in K. cbn [fold_left] in K.
  apply (f_equal m_book) in K. change (m_book (machine_of f)) with (statement_of f) in K. rewrite <- K. unfold m_meet. destruct (touched ru a); reflexivity.
Qed.
Lemma fill_qty k s l f : l_qty (apply_fill k s l f) = l_qty l + signed_qty f.
Proof. unfold apply_fill. destruct (Z.eqb_spec (l_qty l) 0) as [Z0|Z0]; [cbn [l_qty]; lia|]. destruct (_ =? _); reflexivity. Qed.
Lemma moved_by c e ru f r a : valid_config c -> reachable c e -> ex_active e = [a] -> real_trades ru -> 0 < lo_rem a -> step c e (OpUpdate ru) = Done (f, Ok r) ->
  moved e f = match touched ru a with None => 0 | Some q => q end.
Proof.
  intros V R A T P S. pose proof (met c e ru f r a V R A S) as M. unfold moved. change (position_quantity (ex_pos f)) with (l_qty (statement_of f)). change (position_quantity (ex_pos e)) with (l_qty (statement_of e)). rewrite M.
  destruct (touched ru a) as [q|] eqn:E; [|lia]. pose proof (touched_nonneg ru a q T P E). rewrite fill_qty. unfold passive, signed_qty. cbn [f_side f_qty]. destruct (lo_side a); lia.
Qed.

Lemma patience_fills c e1 e2 a b ru f1 r1 f2 r2 : valid_config c -> reachable c e1 -> reachable c e2 -> more_patient e1 e2 a b -> real_trades ru ->
  step c e1 (OpUpdate ru) = Done (f1, Ok r1) -> step c e2 (OpUpdate ru) = Done (f2, Ok r2) -> moved e2 f2 <= moved e1 f1.
Proof.
  intros V R1 R2 (A1 & A2 & E & Q & N) T S1 S2.
  assert (P1 : 0 < lo_rem a) by (apply (inv_ok _ _ (reachable_inv c e1 (vc_max _ V) R1)); rewrite A1; left; reflexivity).
  rewrite (moved_by c e1 ru f1 r1 a), (moved_by c e2 ru f2 r2 b); auto; [|rewrite Q; exact P1].
  destruct (touched ru b) as [q|] eqn:B.
  - destruct (touched_mono ru a b q E Q N T P1 B) as (_ & q' & H & L). rewrite H. exact L.
  - destruct (touched ru a) as [q|] eqn:B1; [exact (touched_nonneg ru a q T P1 B1)|lia].
Qed.
Lemma patience_money c e1 e2 a b ru f1 r1 f2 r2 m : valid_config c -> reachable c e1 -> reachable c e2 -> statement_of e1 = statement_of e2 -> more_patient e1 e2 a b -> real_trades ru ->
  - c_scale c <= ct_maker (c_spec c) <= c_scale c -> step c e1 (OpUpdate ru) = Done (f1, Ok r1) -> step c e2 (OpUpdate ru) = Done (f2, Ok r2) ->
  moved e1 f1 = moved e2 f2 -> opens_or_reduces e1 (lo_side a) (moved e1 f1) -> worth c m f1 <= worth c m f2.
Proof.
  intros V R1 R2 ES (A1 & A2 & E & Q & N) T F S1 S2 M O.
  assert (I1 : order_ok a) by (apply (inv_ok _ _ (reachable_inv c e1 (vc_max _ V) R1)); rewrite A1; left; reflexivity).
  assert (I2 : order_ok b) by (apply (inv_ok _ _ (reachable_inv c e2 (vc_max _ V) R2)); rewrite A2; left; reflexivity).
  destruct I1 as (P1 & PP1 & _). destruct I2 as (P2 & PP2 & _).
  pose proof (moved_by c e1 ru f1 r1 a V R1 A1 T P1 S1) as M1. pose proof (moved_by c e2 ru f2 r2 b V R2 A2 T P2 S2) as M2.
  pose proof (met c e1 ru f1 r1 a V R1 A1 S1) as H1. pose proof (met c e2 ru f2 r2 b V R2 A2 S2) as H2. rewrite !worth_ledger.
  destruct (touched ru b) as [q|] eqn:B.
  - destruct (touched_mono ru a b q E Q N T P1 B) as (QN & q' & H & L). rewrite H in M1, H1. assert (QQ : q' = q) by lia. rewrite QQ in M1, H1. rewrite M1 in O. rewrite H1, H2, <- ES. unfold passive. rewrite E.
    pose proof (met_some c e2 ru f2 r2 b q V R2 A2 S2 B). apply fill_simple; auto. apply (vc_scale _ V).
  - rewrite H2. destruct (touched ru a) as [q|] eqn:B1; [|rewrite H1, ES; lia].
    pose proof (met_some c e1 ru f1 r1 a q V R1 A1 S1 B1). lia.
Qed.
