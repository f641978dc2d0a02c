(** Cancelling before or after a market order. *)
From Coq Require Import Permutation.
From Verif Require Import ProofBase BookLemmas Inv Types Accounting Filters Position OrderBook OrderMargin MarketUpdate Exchange Spec SpecConfig SpecMarket SpecFlow SpecMargin SpecPanic
  SpecMachine SpecCrash MachineProof CrashProof MarginProof OrderProof HealthProof ReliefProof.

Lemma bought c e sd q uid e' o : valid_config c -> reachable c e -> step c e (OpMarket sd q uid) = Done (e', Ok o) ->
  machine_of e' = with_id (m_fill c (machine_of e) (taken c (machine_of e) sd q)) /\
  o = OutMarket {| fm_uid := uid; fm_side := sd; fm_qty := q; fm_id := ex_next_id e; fm_ts := ms_ts (ex_ms e); fm_exec_ts := ms_ts (ex_ms e); fm_avg := m_price (machine_of e) sd; fm_filled := q |}.
Proof.
  intros V R S. destruct (exec_ok c e _ e' _ V R S) as [_ K]. cbn [m_call] in K. unfold m_market in K.
  destruct (q <=? 0); [apply (f_equal snd) in K; discriminate|]. destruct (quantity_fault _ q); [apply (f_equal snd) in K; discriminate|].
  destruct (m_funded c (machine_of e) sd q); [|apply (f_equal snd) in K; discriminate]. pose proof (f_equal fst K) as K1. pose proof (f_equal snd K) as K2. cbn [fst snd] in K1, K2. split; [congruence|].
  injection K2 as <-. reflexivity.
Qed.
Lemma sooner_same c e b e1 x sd q uid e2 o e3 o' e4 r : valid_config c -> reachable c e ->
  step c e (OpCancel b) = Done (e1, Ok (OutLimit x)) -> step c e1 (OpMarket sd q uid) = Done (e2, Ok o) ->
  step c e (OpMarket sd q uid) = Done (e3, Ok o') -> step c e3 (OpCancel b) = Done (e4, r) ->
  r = Ok (OutLimit x) /\ o' = o /\ statement_of e4 = statement_of e2 /\ position_margin_of e4 = position_margin_of e2 /\ ex_active e4 = ex_active e2 /\
  ex_next_id e4 = ex_next_id e2 /\ wallet_of e4 + order_margin_of e4 = wallet_of e2 + order_margin_of e2.
Proof.
  intros V R S1 S2 S3 S4. pose proof (reach_step _ _ _ _ _ R S1) as R1. pose proof (reach_step _ _ _ _ _ R S3) as R3.
  destruct (cancelled c e b e1 x V R S1) as (M1 & F & _). destruct (bought c e1 sd q uid e2 o V R1 S2) as [M2 O2]. destruct (bought c e sd q uid e3 o' V R S3) as [M3 O3].
  destruct (exec_ok c e3 _ e4 _ V R3 S4) as [_ K]. cbn [m_call] in K. unfold m_cancel in K.
  assert (F3 : find (named b) (m_orders (machine_of e3)) = Some x) by (rewrite M3; exact F). rewrite F3 in K. pose proof (f_equal fst K) as K1. pose proof (f_equal snd K) as K2. cbn [fst snd] in K1, K2.
  rewrite M3 in K1. rewrite M1 in M2.
  pose proof (f_equal m_book M2) as A1. pose proof (f_equal m_held M2) as A2. pose proof (f_equal m_orders M2) as A3. pose proof (f_equal m_next M2) as A4.
  pose proof (f_equal m_book K1) as B1. pose proof (f_equal m_held K1) as B2. pose proof (f_equal m_orders K1) as B3. pose proof (f_equal m_next K1) as B4.
  change (m_book (machine_of e2)) with (statement_of e2) in A1. change (m_book (machine_of e4)) with (statement_of e4) in B1.
  change (m_held (machine_of e2)) with (position_margin_of e2) in A2. change (m_held (machine_of e4)) with (position_margin_of e4) in B2.
  change (m_orders (machine_of e2)) with (ex_active e2) in A3. change (m_orders (machine_of e4)) with (ex_active e4) in B3.
  change (m_next (machine_of e2)) with (ex_next_id e2) in A4. change (m_next (machine_of e4)) with (ex_next_id e4) in B4.
  assert (E1 : statement_of e4 = statement_of e2) by (rewrite A1, <- B1; reflexivity). assert (E2 : position_margin_of e4 = position_margin_of e2) by (rewrite A2, <- B2; reflexivity).
  split; [symmetry; exact K2|]. split. { rewrite O2, O3. pose proof (f_equal m_next M1) as N1. pose proof (f_equal m_time M1) as N2. change (ex_next_id e1 = ex_next_id e) in N1. change (ms_ts (ex_ms e1) = ms_ts (ex_ms e)) in N2. rewrite N1, N2, M1. reflexivity. }
  split; [exact E1|]. split; [exact E2|]. split; [rewrite A3, <- B3; reflexivity|]. split; [rewrite A4, <- B4; reflexivity|].
  rewrite <- !machine_wallet. unfold m_free. cbn [machine_of m_book m_held m_reserved]. rewrite E1, E2. lia.
Qed.
