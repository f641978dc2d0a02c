(** A limit order before or after a market order. *)
From Verif Require Import ProofBase BookLemmas Inv Types Accounting Filters Position OrderBook OrderMargin MarketUpdate Exchange Spec SpecConfig SpecMarket SpecEntry SpecFlow SpecMargin SpecPanic
  SpecMachine SpecCrash MachineProof CrashProof MarginProof OrderProof HealthProof ReliefProof SoonerProof.

Lemma rested c e sd p q uid e' r : valid_config c -> reachable c e -> step c e (OpLimit sd p q uid) = Done (e', Ok r) ->
  r = OutLimit (fresh_order e sd p q uid) /\ ex_active e' = ex_active e ++ [fresh_order e sd p q uid] /\ ex_next_id e' = ex_next_id e + 1 /\ statement_of e' = statement_of e /\
  position_margin_of e' = position_margin_of e /\ ms_bid (ex_ms e') = ms_bid (ex_ms e) /\ ms_ask (ex_ms e') = ms_ask (ex_ms e) /\ ms_ts (ex_ms e') = ms_ts (ex_ms e).
Proof.
  intros V R S. destruct (exec_ok c e _ e' _ V R S) as [_ K]. cbn [m_call] in K. unfold m_limit in K. destruct (p <=? 0); [apply (f_equal snd) in K; discriminate|]. destruct (q <=? 0); [apply (f_equal snd) in K; discriminate|].
  unfold m_submit in K. destruct (quantity_fault _ q); [apply (f_equal snd) in K; discriminate|]. destruct (price_fault _ _ _ p); [apply (f_equal snd) in K; discriminate|]. cbv zeta in K.
  destruct (_ <? _); [apply (f_equal snd) in K; discriminate|]. destruct (match sd with Buy => _ | Sell => _ end); [apply (f_equal snd) in K; discriminate|]. destruct (c_max c <=? _); [apply (f_equal snd) in K; discriminate|].
  pose proof (f_equal fst K) as K1. pose proof (f_equal snd K) as K2. cbn [fst snd] in K1, K2. injection K2 as <-. split; [reflexivity|].
  pose proof (f_equal m_orders K1) as A1. pose proof (f_equal m_next K1) as A2. pose proof (f_equal m_book K1) as A3. pose proof (f_equal m_held K1) as A4. pose proof (f_equal m_bid K1) as A5. pose proof (f_equal m_ask K1) as A6. pose proof (f_equal m_time K1) as A7.
  split; [symmetry; exact A1|]. split; [symmetry; exact A2|]. split; [symmetry; exact A3|]. split; [symmetry; exact A4|]. split; [symmetry; exact A5|]. split; [symmetry; exact A6 | symmetry; exact A7].
Qed.
Lemma either_same c e sd p q uid e1 x sd' q' uid' e2 o e3 o' e4 x' : valid_config c -> reachable c e ->
  step c e (OpLimit sd p q uid) = Done (e1, Ok x) -> step c e1 (OpMarket sd' q' uid') = Done (e2, Ok (OutMarket o)) ->
  step c e (OpMarket sd' q' uid') = Done (e3, Ok (OutMarket o')) -> step c e3 (OpLimit sd p q uid) = Done (e4, Ok x') ->
  ex_active e2 = ex_active e ++ [fresh_order e sd p q uid] /\ ex_active e4 = ex_active e ++ [fresh_order e3 sd p q uid] /\ ex_next_id e3 = ex_next_id e + 1 /\
  fm_avg o' = fm_avg o /\ fm_filled o' = fm_filled o /\ fm_ts o' = fm_ts o /\ fm_id o = fm_id o' + 1 /\
  statement_of e4 = statement_of e2 /\ position_margin_of e4 = position_margin_of e2 /\ ex_next_id e4 = ex_next_id e2 /\ wallet_of e4 + order_margin_of e4 = wallet_of e2 + order_margin_of e2.
Proof.
  intros V R S1 S2 S3 S4. pose proof (reach_step _ _ _ _ _ R S1) as R1. pose proof (reach_step _ _ _ _ _ R S3) as R3.
  destruct (rested c e sd p q uid e1 x V R S1) as (_ & A1 & N1 & B1 & P1 & Bi & As & Ts). destruct (rested c e3 sd p q uid e4 x' V R3 S4) as (_ & A4 & N4 & B4 & P4 & _).
  destruct (bought c e1 sd' q' uid' e2 _ V R1 S2) as [M2 O2]. destruct (bought c e sd' q' uid' e3 _ V R S3) as [M3 O3]. injection O2 as ->. injection O3 as ->.
  pose proof (f_equal m_orders M2) as A2. pose proof (f_equal m_orders M3) as A3. change (ex_active e2 = ex_active e1) in A2. change (ex_active e3 = ex_active e) in A3.
  pose proof (f_equal m_next M2) as N2. pose proof (f_equal m_next M3) as N3. change (ex_next_id e2 = ex_next_id e1 + 1) in N2. change (ex_next_id e3 = ex_next_id e + 1) in N3.
  assert (Pr : m_price (machine_of e1) sd' = m_price (machine_of e) sd') by (destruct sd'; [exact As | exact Bi]).
  assert (Tk : taken c (machine_of e1) sd' q' = taken c (machine_of e) sd' q') by (unfold taken; rewrite Pr; reflexivity).
  pose proof (f_equal m_book M2) as B2. pose proof (f_equal m_book M3) as B3. rewrite Tk in B2.
  change (statement_of e2 = apply_fill (c_kind c) (c_scale c) (statement_of e1) (taken c (machine_of e) sd' q')) in B2. change (statement_of e3 = apply_fill (c_kind c) (c_scale c) (statement_of e) (taken c (machine_of e) sd' q')) in B3.
  pose proof (f_equal m_held M2) as P2. pose proof (f_equal m_held M3) as P3. rewrite Tk in P2.
  change (position_margin_of e2 = margin_after c (statement_of e1) (position_margin_of e1) (taken c (machine_of e) sd' q')) in P2.
  change (position_margin_of e3 = margin_after c (statement_of e) (position_margin_of e) (taken c (machine_of e) sd' q')) in P3.
  assert (E1 : statement_of e4 = statement_of e2) by congruence. assert (E2 : position_margin_of e4 = position_margin_of e2) by congruence.
  split; [congruence|]. split; [congruence|]. split; [exact N3|]. cbn [fm_avg fm_filled fm_ts fm_id].
  split; [symmetry; exact Pr|]. split; [reflexivity|]. split; [symmetry; exact Ts|]. split; [exact N1|]. split; [exact E1|]. split; [exact E2|]. split; [lia|].
  rewrite <- !machine_wallet. unfold m_free. cbn [machine_of m_book m_held m_reserved]. rewrite E1, E2. lia.
Qed.
