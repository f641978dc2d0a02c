(** Leaving the market. *)
From Coq Require Import Permutation.
From Verif Require Import ProofBase BookLemmas StepLemmas OpLemmas Inv Filters OrderBook OrderMargin Risk MarketUpdate Tracker Exchange Spec SpecConfig SpecRules SpecBook SpecMarket SpecFlow SpecEntry SpecMargin SpecPanic SpecMachine
  BookProof OrderProof EntryProof EntryFacts MarginProof SoundProof PanicProof PanicCor MachineProof TotalProof TradeFacts HealthProof PositionFacts PartsProof SpecWind.

(** ** One cancellation *)
Definition release (acc : accounts) (x : Z) : accounts := transfer_pure acc WALLET ORDER_MARGIN x.
Lemma release_add acc x y : release (release acc x) y = release acc (x + y).
Proof. destruct acc as [[wd wc] [od oc] p f b t]. unfold release, transfer_pure; cbn. unfold post_debit, post_credit; cbn. do 2 f_equal; lia. Qed.
Lemma release_zero acc : release acc 0 = acc.
Proof. destruct acc as [[wd wc] [od oc] p f b t]. unfold release, transfer_pure; cbn. unfold post_debit, post_credit; cbn. rewrite !Z.add_0_r. reflexivity. Qed.
Lemma release_om acc x : bal (release acc x) ORDER_MARGIN = bal acc ORDER_MARGIN - x.
Proof. destruct acc as [[wd wc] [od oc] p f b t]. unfold bal, margin_balance_of, net_balance; cbn. lia. Qed.

Fixpoint logged (n : nat) (t : tracker) : tracker := match n with O => t | S n => logged n (log_limit_order_cancellation t) end.
(** [e'] is [e] after [n] cancellations that left [b]. *)
Definition gone (n : nat) (b : list limit_order) (m : Z) (e : exchange) : exchange :=
  {| ex_ms := ex_ms e; ex_trk := logged n (ex_trk e); ex_next_id := ex_next_id e; ex_acc := release (ex_acc e) m;
     ex_pos := ex_pos e; ex_active := b; ex_om := b; ex_trig := ex_trig e; ex_updates := ex_updates e |}.
Lemma gone_refl c e : Inv c e -> e = gone 0 (ex_active e) 0 e.
Proof. intros I. unfold gone. rewrite release_zero. cbn [logged]. pose proof (inv_books _ _ I) as B. destruct e; cbn in *. subst. reflexivity. Qed.

Lemma cancel_shape c e by_ e' o : cancel_effect c e e' by_ o -> e' = gone 1 (ex_active e') (order_margin_of e - order_margin_of e') e.
Proof.
  intros C. destruct (ce_acc _ _ _ _ _ C) as (n & _ & Hle & Ha). change (order_margin_of e) with (bal (ex_acc e) ORDER_MARGIN) in *. change (order_margin_of e') with (bal (ex_acc e') ORDER_MARGIN) in *.
  assert (A : ex_acc e' = release (ex_acc e) (bal (ex_acc e) ORDER_MARGIN - n)).
  { destruct (Z.ltb_spec n (bal (ex_acc e) ORDER_MARGIN)); [exact Ha|]. rewrite Ha. replace (_ - n) with 0 by lia. symmetry. apply release_zero. }
  assert (N : n = bal (ex_acc e') ORDER_MARGIN) by (rewrite A, release_om; lia). rewrite <- N.
  destruct C. unfold gone. cbn [logged]. destruct e'; cbn in *. subst. rewrite <- A. reflexivity.
Qed.
Lemma gone_gone n b m k b' m' e : gone k b' m' (gone n b m e) = gone (n + k) b' (m + m') e.
Proof.
  unfold gone; cbn. rewrite release_add. f_equal. revert e. induction n as [|n IH]; intros e; cbn [logged Nat.add]; [reflexivity|].
  assert (G : forall j t, logged k (logged j t) = logged (j + k) t) by (clear; induction j as [|j IH]; intros t; cbn [logged Nat.add]; [reflexivity | apply IH]).
  apply G.
Qed.

(** A call that cancels an order by its id and returns. *)
Lemma cancel_listed c e i e' r : valid_config c -> reachable c e -> In i (map lo_id (ex_active e)) ->
  step c e (OpCancel (ByOrderId i)) = Done (e', r) ->
  exists o, r = Ok (OutLimit o) /\ lo_id o = i /\ Permutation (ex_active e) (o :: ex_active e') /\ cancel_effect c e e' (ByOrderId i) o.
Proof.
  intros V R I H. pose proof (cancel_exact c e (ByOrderId i) e' r (vc_max _ V) R H) as X. cbn [step] in H. apply map_out_done in H as (rr & H & Hr).
  apply cancel_spec in H as [_ H]. destruct rr as [o|err].
  - cbn [map_out] in Hr. subst r. destruct X as (_ & M & P & _). exists o. split; [reflexivity|]. split; [exact M|]. split; [exact P | exact H].
  - subst r. destruct X as (_ & N & _). apply in_map_iff in I as (o & E & Io). destruct (N o Io E).
Qed.

Lemma cancels_run c ids : forall e e' outs, valid_config c -> reachable c e -> incl ids (map lo_id (ex_active e)) -> NoDup ids ->
  run c e (cancels ids) = Done (e', outs) ->
  exists os, handed_back ids os outs /\ Permutation (ex_active e) (os ++ ex_active e') /\
    e' = gone (length ids) (ex_active e') (order_margin_of e - order_margin_of e') e /\ reachable c e'.
Proof.
  induction ids as [|i ids IH]; intros e e' outs V R I N H; cbn [cancels map run] in H.
  { injection H as <- <-. exists []. split; [split; reflexivity|]. split; [reflexivity|]. split; [|exact R]. cbn [length]. rewrite Z.sub_diag.
    apply (gone_refl c), reachable_inv; [apply (vc_max _ V) | exact R]. }
  apply bind_done in H as [[e1 r] [H1 H]]. apply bind_done in H as [[e2 rs] [H2 H]]. injection H as <- <-.
  destruct (cancel_listed c e i e1 r V R (I i (or_introl eq_refl)) H1) as (o & -> & Eo & P & C).
  pose proof (reach_step _ _ _ _ _ R H1) as R1.
  assert (I1 : incl ids (map lo_id (ex_active e1))).
  { intros j J. assert (K : In j (map lo_id (ex_active e))) by (apply I; right; exact J). apply (Permutation_in j (Permutation_map lo_id P)) in K. cbn [map] in K.
    destruct K as [K|K]; [|exact K]. inversion N; subst. contradiction. }
  assert (N1 : NoDup ids) by (inversion N; assumption).
  destruct (IH e1 e2 rs V R1 I1 N1 H2) as (os & [A B] & P2 & G & R2). exists (o :: os).
  split; [split; cbn [map]; congruence|]. split; [rewrite P; cbn [app]; constructor; exact P2|]. split; [|exact R2].
  rewrite G. cbn [gone ex_active]. pose proof (cancel_shape _ _ _ _ _ C) as S. 
  assert (M : order_margin_of (gone (length ids) (ex_active e2) (order_margin_of e1 - order_margin_of e2) e1) = order_margin_of e2).
  { unfold order_margin_of at 1. cbn [gone ex_acc]. change (bal (release (ex_acc e1) (order_margin_of e1 - order_margin_of e2)) ORDER_MARGIN = order_margin_of e2).
    rewrite release_om. change (bal (ex_acc e1) ORDER_MARGIN) with (order_margin_of e1). lia. }
  rewrite M. rewrite S at 2. rewrite gone_gone. f_equal. lia.
Qed.

Lemma cancel_all c e ids e' outs : valid_config c -> reachable c e -> everything e ids -> run c e (cancels ids) = Done (e', outs) ->
  exists os, handed_back ids os outs /\ Permutation (ex_active e) os /\ ex_active e' = [] /\ order_margin_of e' = 0 /\
    e' = gone (length ids) [] (order_margin_of e) e /\ reachable c e'.
Proof.
  intros V R E H. pose proof (reachable_inv _ _ (vc_max _ V) R) as I.
  assert (N : NoDup ids) by (apply (Permutation_NoDup (Permutation_sym E)); apply (inv_nodup _ _ I)).
  destruct (cancels_run c ids e e' outs V R) as (os & B & P & G & R'); [intros j J; exact (Permutation_in j E J) | exact N | exact H|].
  exists os. split; [exact B|].
  assert (Z0 : ex_active e' = []).
  { pose proof (Permutation_length P) as L. rewrite app_length in L. pose proof (Permutation_length E) as L2. rewrite map_length in L2.
    destruct B as [_ B]. assert (L3 : length os = length ids) by (rewrite <- B, map_length; reflexivity). destruct (ex_active e'); [reflexivity|]. cbn [length] in L. lia. }
  rewrite Z0, app_nil_r in P. split; [exact P|]. split; [exact Z0|].
  assert (M : order_margin_of e' = 0) by (apply (so_empty _ _ (reachable_sound _ _ V R')), Z0). split; [exact M|]. split; [|exact R'].
  rewrite G, Z0, M, Z.sub_0_r. cbn [gone ex_active]. reflexivity.
Qed.
Lemma cancel_all_money c e ids e' outs : valid_config c -> reachable c e -> everything e ids -> run c e (cancels ids) = Done (e', outs) ->
  exists os, handed_back ids os outs /\ Permutation (ex_active e) os /\ ex_active e' = [] /\ order_margin_of e' = 0 /\
    reserved e e' (- order_margin_of e).
Proof.
  intros V R E H. destruct (cancel_all c e ids e' outs V R E H) as (os & B & P & Z0 & M & G & _). exists os.
  split; [exact B|]. split; [exact P|]. split; [exact Z0|]. split; [exact M|]. rewrite G. unfold reserved, wallet_of, order_margin_of, position_margin_of, fees_paid, balances, gone, release, margin_balance_of, net_balance.
  destruct (ex_acc e) as [[wd wc] [od oc] p f b t]; cbn. repeat split; lia.
Qed.
Lemma cancel_any_order c e ids ids' e1 o1 e2 o2 : valid_config c -> reachable c e -> everything e ids -> everything e ids' ->
  run c e (cancels ids) = Done (e1, o1) -> run c e (cancels ids') = Done (e2, o2) -> e1 = e2.
Proof.
  intros V R E1 E2 H1 H2. destruct (cancel_all c e ids e1 o1 V R E1 H1) as (_ & _ & _ & _ & _ & -> & _).
  destruct (cancel_all c e ids' e2 o2 V R E2 H2) as (_ & _ & _ & _ & _ & -> & _).
  rewrite (Permutation_length E1), (Permutation_length E2). reflexivity.
Qed.

(** ** When cancelling works *)
Lemma cancel_last_safe c e b o : valid_config c -> reachable c e -> in_sync c e -> ex_active e = b ++ [o] ->
  exists e' r, step c e (OpCancel (ByOrderId (lo_id o))) = Done (e', r) /\ ex_active e' = b /\ in_sync c e'.
Proof.
  intros V R Hs E. pose proof (reachable_sound _ _ V R) as S. pose proof (so_inv _ _ S) as I.
  assert (N : NoDup (map lo_id (b ++ [o]))) by (rewrite <- E; apply (inv_nodup _ _ I)).
  assert (K : forall x, In x b -> lo_id x <> lo_id o).
  { intros x X Q. rewrite map_app in N. cbn [map] in N. apply NoDup_remove_2 in N. rewrite app_nil_r in N. apply N. rewrite <- Q. apply in_map, X. }
  assert (F : forall act' o', remove_by_order_id (ex_active e) (lo_id o) = Some (o', act') -> act' = b).
  { intros act' o' Q. rewrite E in Q. destruct (remove_exact (b ++ [o]) (lo_id o) 0) as (Q1 & _).
    destruct (Q1 b o []) as (b' & Q2 & [[_ ->]|(r' & z & Q3 & _)]); [split; [reflexivity|]; split; [reflexivity|]; intros x X; apply K, X| |destruct r'; discriminate].
    rewrite Q2 in Q. injection Q as <- <-. reflexivity. }
  assert (T : exists e' r, step c e (OpCancel (ByOrderId (lo_id o))) = Done (e', r)).
  { cbn [step]. apply map_out_total. pose proof Hs as Hq. apply (sync_req _ _ V S) in Hq. apply cancel_safe_gen; [exact V | exact S | contradiction|].
    intros o' act' Q Hlt. exfalso. cbn [remove_with] in Q. rewrite (F _ _ Q) in Hlt. rewrite Hq, E in Hlt.
    pose proof (req_snoc c b o (ex_pos e) (vc_scale _ V) (proj1 (vc_imr _ V))) as X. rewrite <- E in X. specialize (X (inv_good _ _ I)). rewrite E in X. lia. }
  destruct T as (e' & r & T). exists e', r. split; [exact T|].
  destruct (cancel_listed c e (lo_id o) e' r V R) as (o' & _ & _ & _ & C); [rewrite E; apply in_map, in_elt | exact T|].
  split; [exact (F _ _ (ce_active _ _ _ _ _ C))|]. exact (entry_sync c e (OpCancel (ByOrderId (lo_id o))) e' r V R Logic.I Hs T).
Qed.
Lemma cancel_last_first c : forall b e, valid_config c -> reachable c e -> in_sync c e -> ex_active e = b ->
  exists e' outs, run c e (cancels (rev (map lo_id b))) = Done (e', outs).
Proof.
  induction b as [|o b IH] using rev_ind; intros e V R Hs E; [exists e, []; reflexivity|].
  rewrite map_app, rev_app_distr. cbn [map rev app cancels run]. destruct (cancel_last_safe c e b o V R Hs E) as (e1 & r & T & E1 & S1). rewrite T. cbn [bind].
  destruct (IH e1 V (reach_step _ _ _ _ _ R T) S1 E1) as (e2 & outs & H). unfold cancels in H. rewrite H. cbn [bind]. eauto.
Qed.
Lemma cancel_blocked c e b : valid_config c -> reachable c e -> ~ in_sync c e -> step c e (OpCancel b) = Panic PCancelMargin.
Proof.
  intros V R N. pose proof (reachable_sound _ _ V R) as S. pose proof (so_inv _ _ S) as I. cbn [step]. unfold cancel_limit_order, computed_order_margin at 1. rewrite (inv_books _ _ I) at 1.
  rewrite om_eq at 1; [|exact V | apply (inv_good _ _ I) | apply (inv_pos _ _ I)]. cbn [bind]. fold (bal (ex_acc e) ORDER_MARGIN).
  destruct (Z.eqb_spec (bal (ex_acc e) ORDER_MARGIN) (req c (ex_active e) (ex_pos e))) as [Q|Q]; [|reflexivity].
  exfalso. apply N, (sync_req _ _ V S), Q.
Qed.
Lemma last_first_everything e : everything e (last_first e).
Proof. unfold everything, last_first. symmetry. apply Permutation_rev. Qed.
Lemma cancel_returns c e : valid_config c -> reachable c e ->
  ((exists e' outs, run c e (cancels (last_first e)) = Done (e', outs)) <-> in_sync c e) /\
  (~ in_sync c e -> ex_active e <> [] /\ forall b, step c e (OpCancel b) = Panic PCancelMargin).
Proof.
  intros V R. assert (D : ~ in_sync c e -> ex_active e <> []) by (intros N E; apply N, empty_in_sync; assumption).
  split; [split|].
  - intros (e' & outs & H). destruct (order_margin c (ex_active e) (ex_pos e)) as [x|p] eqn:Q.
    + destruct (Z.eq_dec x (order_margin_of e)) as [->|N]; [exact Q|]. exfalso.
      assert (N' : ~ in_sync c e) by (unfold in_sync; rewrite Q; congruence).
      unfold last_first in H. destruct (rev (map lo_id (ex_active e))) as [|i l] eqn:L.
      * apply (D N'). apply (f_equal (@length _)) in L. rewrite rev_length, map_length in L. destruct (ex_active e); [reflexivity | discriminate].
      * cbn [cancels map run] in H. rewrite (cancel_blocked _ _ _ V R N') in H. discriminate.
    + exfalso. pose proof (reachable_sound _ _ V R) as S. rewrite om_eq in Q; [discriminate | exact V | apply (inv_good _ _ (so_inv _ _ S)) | apply (inv_pos _ _ (so_inv _ _ S))].
  - intros Hs. exact (cancel_last_first c (ex_active e) e V R Hs eq_refl).
  - intros N. split; [exact (D N)|]. intros b. exact (cancel_blocked c e b V R N).
Qed.

(** ** Closing *)
Lemma close_exact c e uid : valid_config c -> reachable c e -> ex_pos e <> Neutral ->
  ((exists e' f, run c e (closing e uid) = Done (e', [Ok (OutMarket f)])) <-> closable c e).
Proof.
  intros V R N. pose proof (inv_pos _ _ (reachable_inv _ _ (vc_max _ V) R)) as Hpo.
  assert (Q0 : 0 < Z.abs (position_quantity (ex_pos e))) by (destruct (ex_pos e); [contradiction| |]; cbn in *; lia).
  assert (X : closing e uid = [OpMarket (closing_side (ex_pos e)) (Z.abs (position_quantity (ex_pos e))) uid]) by (unfold closing; destruct (ex_pos e); [contradiction|reflexivity|reflexivity]).
  rewrite X. cbn [run]. clear X.
  assert (Y : (exists e' f, run c e [OpMarket (closing_side (ex_pos e)) (Z.abs (position_quantity (ex_pos e))) uid] = Done (e', [Ok (OutMarket f)])) <->
              (exists e' f, step c e (OpMarket (closing_side (ex_pos e)) (Z.abs (position_quantity (ex_pos e))) uid) = Done (e', Ok (OutMarket f)))).
  { cbn [run]. split; intros (e' & f & H).
    - apply bind_done in H as [[e1 r] [H1 H]]. cbn [bind] in H. injection H as <- ->. eauto.
    - exists e', f. rewrite H. reflexivity. }
  cbn [run] in Y. rewrite Y, (market_exact c e _ _ uid V R). clear Y. unfold closable.
  assert (FB : funded c e (closing_side (ex_pos e)) (Z.abs (position_quantity (ex_pos e))) (taker_price e (closing_side (ex_pos e))) /\
    (bookable c e (closing_side (ex_pos e)) (Z.abs (position_quantity (ex_pos e))) (taker_price e (closing_side (ex_pos e))) <->
     0 < margin_at c (Z.abs (position_quantity (ex_pos e))) (position_entry_price (ex_pos e)) /\
     (c_dbg c = true -> position_margin_of e = margin_at c (Z.abs (position_quantity (ex_pos e))) (position_entry_price (ex_pos e))))).
  { unfold bookable, funded. destruct (ex_pos e) as [|i|i]; [contradiction| |]; cbn [closing_side same_side position_quantity position_entry_price] in *;
    rewrite ?Z.abs_opp, Z.abs_eq by (cbn in Hpo; lia); rewrite Z.compare_refl; cbn in Hpo; split; try (left; lia); tauto. }
  destruct FB as [F FB]. rewrite FB. split; [tauto|]. intros H. destruct (H N) as (H1 & H2 & H3 & H4). tauto.
Qed.

Lemma close_result c e uid e' outs : valid_config c -> reachable c e -> closable c e -> run c e (closing e uid) = Done (e', outs) ->
  reachable c e' /\ ex_pos e' = Neutral /\ ex_active e' = ex_active e /\ order_margin_of e' = order_margin_of e /\ ex_ms e' = ex_ms e /\
  wealth_of e' + fees_paid e' = wealth_of e + fees_paid e + open_profit c (ex_pos e) (ms_bid (ex_ms e)) (ms_ask (ex_ms e)) /\
  position_margin_of e' = position_margin_of e - margin_at c (Z.abs (position_quantity (ex_pos e))) (position_entry_price (ex_pos e)).
Proof.
  intros V R C H. assert (D : ex_pos e = Neutral \/ ex_pos e <> Neutral) by (destruct (ex_pos e); [left; reflexivity | right; discriminate | right; discriminate]).
  destruct D as [P|P].
  { unfold closing in H. rewrite P in H. injection H as <- <-. split; [exact R|]. rewrite P. split; [reflexivity|]. split; [reflexivity|]. split; [reflexivity|]. split; [reflexivity|].
    split; [cbn; lia|]. unfold margin_at, value. cbn [position_quantity position_entry_price Z.abs]. assert (Q0 : forall x, Z.quot 0 x = 0) by (intros []; reflexivity). destruct (c_kind c); rewrite ?Z.mul_0_l, ?Q0, ?Z.mul_0_l, ?Q0; lia. }
  assert (Hpo := inv_pos _ _ (reachable_inv _ _ (vc_max _ V) R)).
  destruct (proj2 (close_exact c e uid V R P) C) as (e1 & f & H1). rewrite H1 in H. injection H as -> <-.
  assert (X : closing e uid = [OpMarket (closing_side (ex_pos e)) (Z.abs (position_quantity (ex_pos e))) uid]) by (unfold closing; destruct (ex_pos e); [contradiction|reflexivity|reflexivity]).
  rewrite X in H1. cbn [run] in H1. apply bind_done in H1 as [[e2 r] [H1 H]]. cbn [bind] in H. injection H as -> ->.
  destruct (close_realises _ _ _ _ _ V R H1 P) as (N & W & _). destruct (market_filled _ _ _ _ _ _ _ V R H1) as (_ & _ & _ & _ & A & O & M & _).
  split; [exact (reach_step _ _ _ _ _ R H1)|]. split; [exact N|]. split; [exact A|]. split; [exact O|]. split; [exact M|]. split; [exact W|].
  pose proof (machine_step _ _ _ _ _ V R H1) as Q. cbn [m_call] in Q. unfold m_market in Q.
  destruct (Z.leb_spec (Z.abs (position_quantity (ex_pos e))) 0); [discriminate|].
  destruct (quantity_fault _ _); [discriminate|]. destruct (m_funded _ _ _ _); [|discriminate].
  apply (f_equal fst) in Q. cbn [fst] in Q. apply (f_equal m_held) in Q. cbn [with_id m_fill machine_of m_held m_book statement_of l_qty] in Q. rewrite <- Q.
  unfold margin_after, taken, signed_qty, statement_of. cbn [l_qty l_entry f_side f_qty f_price].
  destruct (ex_pos e) as [|i|i]; [contradiction| |]; cbn [position_quantity position_entry_price closing_side] in *; cbn in Hpo; rewrite Z.leb_refl.
  - destruct (Z.eqb_spec (pi_qty i) 0); [lia|]. destruct (Z.eqb_spec (Z.sgn (pi_qty i)) (Z.sgn (- Z.abs (pi_qty i)))); [lia|]. reflexivity.
  - destruct (Z.eqb_spec (- pi_qty i) 0); [lia|]. destruct (Z.eqb_spec (Z.sgn (- pi_qty i)) (Z.sgn (Z.abs (- pi_qty i)))); [lia|]. reflexivity.
Qed.

(** ** Both *)
Lemma gone_money n b m e : wealth_of (gone n b m e) = wealth_of e /\ fees_paid (gone n b m e) = fees_paid e /\ position_margin_of (gone n b m e) = position_margin_of e.
Proof.
  unfold wealth_of, wallet_of, order_margin_of, position_margin_of, fees_paid, balances, gone, release, margin_balance_of, net_balance.
  destruct (ex_acc e) as [[wd wc] [od oc] p f bb t]; cbn. repeat split; lia.
Qed.
Lemma gone_closable c n b m e : closable c (gone n b m e) <-> closable c e.
Proof. unfold closable. rewrite (proj2 (proj2 (gone_money n b m e))). reflexivity. Qed.
Lemma gone_closing n b m e uid : closing (gone n b m e) uid = closing e uid. Proof. reflexivity. Qed.

Lemma wind_down c e uid : valid_config c -> reachable c e -> in_sync c e -> closable c e ->
  exists e' os fs, run c e (cancels (last_first e) ++ closing e uid) = Done (e', map (fun o => Ok (OutLimit o)) os ++ map (fun f => Ok (OutMarket f)) fs) /\
    map lo_id os = last_first e /\ Permutation (ex_active e) os /\ length fs = length (closing e uid) /\
    left_market e' /\ ex_ms e' = ex_ms e /\
    wealth_of e' + fees_paid e' = wealth_of e + fees_paid e + open_profit c (ex_pos e) (ms_bid (ex_ms e)) (ms_ask (ex_ms e)) /\
    position_margin_of e' = position_margin_of e - margin_at c (Z.abs (position_quantity (ex_pos e))) (position_entry_price (ex_pos e)) /\
    (c_dbg c = true -> wallet_of e' = wealth_of e').
Proof.
  intros V R Hs C. destruct (proj2 (proj1 (cancel_returns c e V R)) Hs) as (e1 & o1 & H1).
  destruct (cancel_all c e _ e1 o1 V R (last_first_everything e) H1) as (os & (-> & B2) & P & Z0 & M & G & R1).
  assert (C1 : closable c e1) by (rewrite G; apply gone_closable, C).
  assert (T : exists e2 fs, run c e1 (closing e1 uid) = Done (e2, map (fun f => Ok (OutMarket f)) fs) /\ length fs = length (closing e1 uid)).
  { assert (D : ex_pos e1 = Neutral \/ ex_pos e1 <> Neutral) by (destruct (ex_pos e1); [left; reflexivity | right; discriminate | right; discriminate]). destruct D as [D|D].
    - exists e1, []. unfold closing. rewrite D. split; reflexivity.
    - destruct (proj2 (close_exact c e1 uid V R1 D) C1) as (e2 & f & H2). exists e2, [f]. split; [exact H2|]. unfold closing. destruct (ex_pos e1); [contradiction|reflexivity|reflexivity]. }
  destruct T as (e2 & fs & H2 & L). destruct (close_result c e1 uid e2 _ V R1 C1 H2) as (R2 & N2 & A2 & O2 & M2 & W2 & P2).
  assert (E1 : closing e1 uid = closing e uid) by (rewrite G; reflexivity). assert (X1 : ex_pos e1 = ex_pos e) by (rewrite G; reflexivity). assert (Y1 : ex_ms e1 = ex_ms e) by (rewrite G; reflexivity).
  assert (GM : wealth_of e1 = wealth_of e /\ fees_paid e1 = fees_paid e /\ position_margin_of e1 = position_margin_of e) by (rewrite G; apply gone_money). destruct GM as (G1 & G2 & G3).
  rewrite E1 in H2, L. rewrite X1, Y1, G1, G2 in W2. rewrite G3, X1 in P2.
  exists e2, os, fs. split; [apply run_app; exists e1, (map (fun o => Ok (OutLimit o)) os), (map (fun f => Ok (OutMarket f)) fs); auto|].
  split; [exact B2|]. split; [exact P|]. split; [exact L|]. split; [split; [congruence|]; split; [exact N2 | congruence]|]. split; [congruence|]. split; [exact W2|]. split; [exact P2|].
  intros Hd. pose proof (flat_debug c e2 V R2 Hd N2) as F. unfold wealth_of. rewrite F, O2, M. lia.
Qed.

(** ** Afterwards *)
Lemma idle_step c e ru e' r : valid_config c -> reachable c e -> left_market e -> step c e (OpUpdate ru) = Done (e', r) ->
  r = Ok (OutUpdates []) /\ left_market e' /\ statement_of e' = statement_of e /\ position_margin_of e' = position_margin_of e /\ ex_next_id e' = ex_next_id e.
Proof.
  intros V R (A & P & O) H. pose proof (machine_step _ _ _ _ _ V R H) as Q. cbn [m_call] in Q. unfold m_update in Q.
  assert (D : m_due c (with_quote (machine_of e) ru) = false) by (unfold m_due, m_pos; cbn; rewrite P; reflexivity). rewrite D in Q.
  cbn [with_quote machine_of m_orders m_meet_all] in Q. unfold m_meet_all, reports in Q. change (m_orders (with_quote (machine_of e) ru)) with (ex_active e) in Q. rewrite A in Q. cbn [fold_left flat_map] in Q.
  pose proof (f_equal snd Q) as QR. apply (f_equal fst) in Q. cbn [fst snd] in Q, QR.
  pose proof (f_equal m_book Q) as QB. pose proof (f_equal m_held Q) as QH. pose proof (f_equal m_reserved Q) as QO. pose proof (f_equal m_orders Q) as QA. pose proof (f_equal m_next Q) as QN.
  unfold with_quote in *. cbn [m_book m_held m_reserved m_orders m_next machine_of] in QB, QH, QO, QA, QN. clear Q. pose proof (f_equal l_qty QB) as QQ. unfold statement_of in QQ. cbn [l_qty] in QQ.
  pose proof (inv_pos _ _ (reachable_inv _ _ (vc_max _ V) (reach_step _ _ _ _ _ R H))) as Hpo.
  rewrite P in QQ. cbn [position_quantity] in QQ.
  assert (P' : ex_pos e' = Neutral) by (destruct (ex_pos e'); cbn in *; [reflexivity|lia|lia]).
  split; [congruence|]. split; [split; [congruence|]; split; [exact P' | congruence]|]. split; [congruence|]. split; congruence.
Qed.
Lemma idle c ops : forall e e' outs, valid_config c -> reachable c e -> left_market e -> only_updates ops -> run c e ops = Done (e', outs) ->
  left_market e' /\ same_money e e' /\ ex_next_id e' = ex_next_id e /\ forall r, In r outs -> r = Ok (OutUpdates []).
Proof.
  induction ops as [|o ops IH]; intros e e' outs V R L U H; cbn [run] in H.
  { injection H as <- <-. split; [exact L|]. split; [unfold same_money; tauto|]. split; [reflexivity|]. intros r []. }
  apply bind_done in H as [[e1 r] [H1 H]]. apply bind_done in H as [[e2 rs] [H2 H]]. injection H as <- <-.
  pose proof (U o (or_introl eq_refl)) as Uo. destruct o as [ru|? ? ?|? ? ? ?|?|? ? ? ? ?|?]; try contradiction.
  destruct (idle_step c e ru e1 r V R L H1) as (-> & L1 & S1 & M1 & N1).
  destruct (IH e1 e2 rs V (reach_step _ _ _ _ _ R H1) L1 (fun o I => U o (or_intror I)) H2) as (L2 & M2 & N2 & O2).
  split; [exact L2|]. split; [|split; [congruence | intros r [<-|I]; [reflexivity | exact (O2 r I)]]].
  destruct L as (_ & _ & L3). destruct L1 as (_ & _ & L4). unfold statement_of in S1. injection S1 as _ _ _ S4 S5.
  unfold same_money, wealth_of in *. destruct M2 as (K1 & K2 & K3 & K4). rewrite K1, K2, K3, K4, M1. repeat split; lia.
Qed.
