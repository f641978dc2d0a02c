(** The benchmark programs on the reference machine. *)
From Verif Require Import ProofBase Types Accounting Filters Currency Position OrderBook OrderMargin MarketUpdate Exchange Helpers Defaults Spec SpecConfig SpecMarket SpecFlow SpecMargin
  SpecMachine SpecCrash MachineProof CrashProof MarginProof OrderProof HealthProof ThinProof Bench.

Fixpoint m_expect (c : config) (m : machine) (ops : list op) : outcome (machine * option error) :=
  match ops with
  | [] => Done (m, None)
  | o :: r => match m_exec c m o with
              | Panic w => Panic w
              | Done (m1, Ok _) => m_expect c m1 r
              | Done (m1, Err y) => Done (m1, Some y)
              end
  end.
Lemma expect_seen c : valid_config c -> forall ops e, reachable c e -> seen (expect_all c e ops) = m_expect c (machine_of e) ops.
Proof.
  intros V. induction ops as [|o ops IH]; intros e R; [reflexivity|]. cbn [expect_all m_expect]. rewrite <- (exec_step c e o V R).
  destruct (step c e o) as [[e1 [x|y]]|w] eqn:E; cbn [bind seen]; [|reflexivity|reflexivity]. apply IH. exact (reach_step _ _ _ _ _ R E).
Qed.
Lemma bench_seen c ops : valid_config c -> seen (bench_run (Done c) ops) = m_expect c (m_start c) ops.
Proof.
  intros V. destruct (init_total c V) as [e0 Hi]. unfold bench_run. cbn [bind]. rewrite Hi. cbn [bind]. rewrite <- (machine_init c e0 Hi).
  apply expect_seen; [exact V|]. exists [], [], e0. split; [exact Hi | reflexivity].
Qed.
Lemma expect_app c : forall a b m, m_expect c m (a ++ b) = match m_expect c m a with Done (m1, None) => m_expect c m1 b | x => x end.
Proof.
  induction a as [|o a IH]; intros b m; [reflexivity|]. cbn [app m_expect]. destruct (m_exec c m o) as [[m1 [x|y]]|w]; [apply IH | reflexivity | reflexivity].
Qed.
(** Calls that change nothing but the time. *)
Lemma seen_of {A} (x : outcome (exchange * A)) m a : seen x = Done (m, a) -> exists e, x = Done (e, a) /\ machine_of e = m.
Proof.
  destruct x as [[e b]|w]; cbn [seen]; [|discriminate]. intros H. assert (T : (machine_of e, b) = (m, a)) by (apply (f_equal (fun x => match x with Done p => p | Panic _ => (machine_of e, b) end)) in H; exact H).
  pose proof (f_equal fst T) as T1. pose proof (f_equal snd T) as T2. cbn [fst snd] in T1, T2. subst b. exists e. split; [reflexivity | exact T1].
Qed.

(** ** The configurations *)
Definition bench_cfg (dbg : bool) (s start qtick maker taker : Z) : config :=
  {| c_kind := Inverse; c_scale := s; c_dbg := dbg; c_start := start; c_max := 200;
     c_spec := {| ct_imr := s; ct_mm := s / 2; ct_pf := {| pf_min := None; pf_max := None; pf_tick := s / 2; pf_up := 2 * s; pf_down := s / 2 |};
                  ct_qf := {| qf_min := None; qf_max := None; qf_tick := qtick |}; ct_maker := maker; ct_taker := taker |};
     c_sample_s := 3600 |}.
Definition limit_cfg (dbg : bool) : config := bench_cfg dbg bench_scale 10000000000 10000 20 60.
Definition market_cfg (dbg : bool) : config := bench_cfg dbg bench_scale 10000000000 1000 20000 60000.
Definition trade_cfg (dbg : bool) : config := bench_cfg dbg bench_scale 100000 100000 200000 600000.
Definition candle_cfg (dbg : bool) : config := bench_cfg dbg 10 10 10 20 60.
Lemma configs m dbg : limit_config m dbg = Done (limit_cfg dbg) /\ market_config m dbg = Done (market_cfg dbg) /\
  trade_config m dbg = Done (trade_cfg dbg) /\ candle_config m dbg = Done (candle_cfg dbg).
Proof. destruct m, dbg; vm_compute; auto. Qed.
Lemma cfg_valid dbg : valid_config (limit_cfg dbg) /\ valid_config (market_cfg dbg) /\ valid_config (trade_cfg dbg) /\ valid_config (candle_cfg dbg).
Proof. repeat split; try discriminate; try reflexivity. Qed.

(** ** Limit orders *)
Definition resting (p : Z) (i : nat) : limit_order :=
  {| lo_uid := 0; lo_side := Buy; lo_price := p; lo_rem := 10000; lo_id := Z.of_nat i; lo_ts := 0; lo_filled := Unfilled |}.
Definition rested (p : Z) (n : nat) : list limit_order := map (resting p) (seq 0 n).
Lemma rested_S p n : rested p (S n) = rested p n ++ [resting p n].
Proof. unfold rested. rewrite seq_S, map_app. reflexivity. Qed.
Lemma rested_length p n : length (rested p n) = n.
Proof. unfold rested. rewrite map_length, seq_length. reflexivity. Qed.
Lemma pairs_rested p l : pairs Buy (map (resting p) l) = repeat (p, 10000) (length l) /\ pairs Sell (map (resting p) l) = [].
Proof. induction l as [|i l [IH1 IH2]]; [split; reflexivity|]. unfold pairs in *. cbn [map flat_map]. rewrite IH1, IH2. split; reflexivity. Qed.
Lemma ranked_same p n : fold_right (place Buy) [] (repeat (p, 10000) n) = repeat (p, 10000) n.
Proof.
  induction n as [|n IH]; [reflexivity|]. cbn [repeat fold_right]. rewrite IH. destruct n as [|n]; [reflexivity|]. cbn [repeat place better fst]. rewrite Z.ltb_irrefl. reflexivity.
Qed.
Lemma cost_same k s p n : cost k s (repeat (p, 10000) n) = Z.of_nat n * value k s 10000 p.
Proof. induction n as [|n IH]; [reflexivity|]. cbn [repeat]. rewrite cost_cons, IH. cbn [fst snd]. lia. Qed.
Lemma need_rested dbg p n : 0 < p -> need (limit_cfg dbg) (rested p n) 0 = Z.of_nat n * value Inverse bench_scale 10000 p.
Proof.
  intros P. unfold need, ranking, rested. destruct (pairs_rested p (seq 0 n)) as [-> ->]. rewrite seq_length, ranked_same. cbn [fold_right]. unfold requirement.
  change (Z.max 0 (- 0)) with 0. change (Z.max 0 0) with 0. rewrite hedge_0 by (intros x X; apply repeat_spec in X; subst x; cbn; lia). rewrite hedge_0 by (intros x []). rewrite cost_same.
  change (cost _ _ []) with 0. change (ct_imr (c_spec (limit_cfg dbg))) with bench_scale. change (c_scale (limit_cfg dbg)) with bench_scale. change (c_kind (limit_cfg dbg)) with Inverse.
  assert (V : 0 <= value Inverse bench_scale 10000 p) by (unfold value; apply Z.quot_pos; unfold bench_scale; lia).
  rewrite Z.max_l by nia. apply Z.quot_mul. discriminate.
Qed.
Definition laid (p : Z) (n : nat) : machine :=
  {| m_book := ledger_start 10000000000; m_held := 0; m_reserved := Z.of_nat n * value Inverse bench_scale 10000 p; m_orders := rested p n;
     m_bid := 100 * bench_scale; m_ask := 101 * bench_scale; m_time := 0; m_next := Z.of_nat n |}.
Lemma bench_quoted dbg p : m_exec (limit_cfg dbg) (m_start (limit_cfg dbg)) (OpUpdate bench_bba) = Done (laid p 0, Ok (OutUpdates [])).
Proof. destruct dbg; reflexivity. Qed.
Definition bench_price (p : Z) : Prop := p = 99 * bench_scale \/ p = 100 * bench_scale.
Lemma worth p : bench_price p -> 0 < value Inverse bench_scale 10000 p <= 101.
Proof. intros [-> | ->]; vm_compute; split; congruence. Qed.
Lemma next_limit dbg p n : bench_price p -> m_exec (limit_cfg dbg) (laid p n) (OpLimit Buy p 10000 0) =
  if Z.of_nat n <? 200 then Done (laid p (S n), Ok (OutLimit (resting p n)))
  else if Z.of_nat n <? 90000000 then Done (with_id (laid p n), Err EMaxNumberOfActiveOrders) else m_exec (limit_cfg dbg) (laid p n) (OpLimit Buy p 10000 0).
Proof.
  intros P. pose proof (worth p P) as W. destruct (Z.ltb_spec (Z.of_nat n) 90000000) as [B|B]; [|destruct (Z.ltb_spec (Z.of_nat n) 200); [lia | reflexivity]].
  assert (P0 : 0 < p) by (destruct P as [-> | ->]; reflexivity).
  assert (S1 : m_submit (limit_cfg dbg) (laid p n) Buy p 10000 0 =
    if Z.of_nat n <? 200 then (laid p (S n), Ok (OutLimit (resting p n))) else (with_id (laid p n), Err EMaxNumberOfActiveOrders)).
  { unfold m_submit. change (quantity_fault _ 10000) with (@None order_error).
    assert (F : price_fault (c_scale (limit_cfg dbg)) (ct_pf (c_spec (limit_cfg dbg))) (Z.quot (m_bid (laid p n) + m_ask (laid p n)) 2) p = None) by (destruct P as [-> | ->]; reflexivity).
    rewrite F. cbv zeta. change ({| lo_uid := 0; lo_side := Buy; lo_price := p; lo_rem := 10000; lo_id := m_next (laid p n); lo_ts := m_time (laid p n); lo_filled := Unfilled |}) with (resting p n).
    change (m_orders (laid p n)) with (rested p n). rewrite <- rested_S. change (m_pos (laid p n)) with 0. rewrite !need_rested by exact P0.
    unfold m_free. change (l_cash (m_book (laid p n))) with 10000000000. change (m_held (laid p n)) with 0. change (m_reserved (laid p n)) with (Z.of_nat n * value Inverse bench_scale 10000 p).
    set (v := value Inverse bench_scale 10000 p) in *.
    rewrite Nat2Z.inj_succ, Z.mul_succ_l. set (x := Z.of_nat n * v) in *. assert (X : 0 <= x <= 9090000000) by (unfold x; nia). assert (C : 10000000000 - 0 - x + x <? x + v = false) by lia. rewrite C.
    assert (A : m_ask (laid p n) <=? p = false) by (destruct P as [-> | ->]; reflexivity). rewrite A. rewrite rested_length. change (c_max (limit_cfg dbg)) with 200.
    destruct (Z.ltb_spec (Z.of_nat n) 200); [replace (200 <=? Z.of_nat n) with false by lia | replace (200 <=? Z.of_nat n) with true by lia; reflexivity].
    f_equal. unfold laid, with_id, with_orders. cbn [m_book m_held m_bid m_ask m_time m_next]. f_equal; [|lia]. rewrite Nat2Z.inj_succ, Z.mul_succ_l. change (value Inverse bench_scale 10000 p) with v. change (Z.of_nat n * v) with x. cbn [m_reserved]. lia. }
  unfold m_exec. cbn [m_crash m_call]. unfold limit_crash, m_limit, submit_crash. replace (p <=? 0) with false by lia. cbn [orb Z.leb Z.compare]. change (10000 <=? 0) with false. cbv iota. rewrite S1.
  destruct (Z.ltb_spec (Z.of_nat n) 200); [|reflexivity]. unfold m_free, demand. change (l_cash (m_book (laid p (S n)))) with 10000000000. change (m_held (laid p (S n))) with 0.
  change (m_reserved (laid p (S n))) with (Z.of_nat (S n) * value Inverse bench_scale 10000 p).
  set (v := value Inverse bench_scale 10000 p) in *. clearbody v. replace (0 <=? 10000000000 - 0 - Z.of_nat (S n) * v) with true by (symmetry; apply Z.leb_le; nia). rewrite orb_true_r. reflexivity.
Qed.
Lemma limits_run dbg p : bench_price p -> forall k n, (n <= 200)%nat -> m_expect (limit_cfg dbg) (laid p n) (repeat (OpLimit Buy p 10000 0) k) =
  if (n + k <=? 200)%nat then Done (laid p (n + k), None) else Done (with_id (laid p 200), Some EMaxNumberOfActiveOrders).
Proof.
  intros P. induction k as [|k IH]; intros n N.
  - cbn [repeat m_expect]. rewrite Nat.add_0_r. destruct (Nat.leb_spec n 200); [reflexivity | lia].
  - cbn [repeat m_expect]. rewrite (next_limit dbg p n P). destruct (Z.ltb_spec (Z.of_nat n) 200) as [B|B].
    + rewrite IH by lia. replace (S n + k)%nat with (n + S k)%nat by lia. reflexivity.
    + assert (n = 200)%nat by lia. subst n. cbn [Z.of_nat]. destruct (Nat.leb_spec (200 + S k) 200); [lia|]. reflexivity.
Qed.
Lemma quoted_limits dbg p n : bench_price p -> m_expect (limit_cfg dbg) (m_start (limit_cfg dbg)) (OpUpdate bench_bba :: repeat (OpLimit Buy p 10000 0) n) =
  if (n <=? 200)%nat then Done (laid p n, None) else Done (with_id (laid p 200), Some EMaxNumberOfActiveOrders).
Proof. intros P. cbn [m_expect]. rewrite (bench_quoted dbg p). apply (limits_run dbg p P n 0). lia. Qed.

(** ** Checks *)
Lemma checks_run c b : forall k m, m_expect c m (repeat (OpCheck (RBba b)) k) = Done (m, None).
Proof.
  induction k as [|k IH]; intros m; [reflexivity|]. cbn [repeat m_expect]. unfold m_exec. cbn [m_crash m_call build_crash check_crash first_of]. unfold m_meet_all. rewrite quote_meets_none. apply IH.
Qed.

(** ** Market orders *)
Definition bought (n : nat) : machine :=
  {| m_book := {| l_qty := 1000 * Z.of_nat n; l_entry := if (n =? 0)%nat then 0 else 101 * bench_scale; l_due := 5 * Z.of_nat n; l_cash := 10000000000; l_paid := 0 |};
     m_held := 9 * Z.of_nat n; m_reserved := 0; m_orders := []; m_bid := 100 * bench_scale; m_ask := 101 * bench_scale; m_time := 0; m_next := Z.of_nat n |}.
Lemma market_quoted dbg : m_exec (market_cfg dbg) (m_start (market_cfg dbg)) (OpUpdate bench_bba) = Done (bought 0, Ok (OutUpdates [])).
Proof. destruct dbg; reflexivity. Qed.
Definition market_limit : Z := 1111111110.
Lemma average_101 n : 0 < n -> average bench_scale (101 * bench_scale) (1000 * n) (101 * bench_scale) 1000 = 101 * bench_scale.
Proof.
  intros N. unfold average. replace (101 * bench_scale * (1000 * n)) with (101000 * n * bench_scale) by (unfold bench_scale; ring). change (101 * bench_scale * 1000) with (101000 * bench_scale).
  rewrite !Z.quot_mul by discriminate. replace ((101000 * n + 101000) * bench_scale) with (101 * bench_scale * (1000 * n + 1000)) by ring. apply Z.quot_mul. lia.
Qed.
Lemma next_market dbg n : m_exec (market_cfg dbg) (bought n) (OpMarket Buy 1000 0) =
  if Z.of_nat n <? market_limit
  then Done (bought (S n), Ok (OutMarket {| fm_uid := 0; fm_side := Buy; fm_qty := 1000; fm_id := Z.of_nat n; fm_ts := 0; fm_exec_ts := 0; fm_avg := 101 * bench_scale; fm_filled := 1000 |}))
  else Done (with_id (bought n), Err (ERisk NotEnoughAvailableBalance)).
Proof.
  assert (Q : m_pos (bought n) =? 0 = (n =? 0)%nat) by (unfold m_pos; cbn [bought m_book l_qty]; destruct (Nat.eqb_spec n 0); lia).
  assert (G : (m_pos (bought n) =? 0) || (Z.sgn (m_pos (bought n)) =? 1) = true).
  { unfold m_pos. cbn [bought m_book l_qty]. destruct (Z.eqb_spec (1000 * Z.of_nat n) 0); [reflexivity|]. replace (Z.sgn (1000 * Z.of_nat n)) with 1 by lia. reflexivity. }
  assert (F : m_funded (market_cfg dbg) (bought n) Buy 1000 = (Z.of_nat n <? market_limit)).
  { unfold m_funded. cbv zeta. change (Z.sgn (signed_qty (taken (market_cfg dbg) (bought n) Buy 1000))) with 1. rewrite G.
    change (margin_at (market_cfg dbg) 1000 (m_price (bought n) Buy) + fee (c_kind (market_cfg dbg)) (c_scale (market_cfg dbg)) (taken (market_cfg dbg) (bought n) Buy 1000)) with 14.
    unfold m_free, market_limit. cbn [bought m_book l_cash m_held m_reserved]. lia. }
  assert (K : market_crash (market_cfg dbg) (bought n) Buy 1000 = None).
  { unfold market_crash. change (1000 <=? 0) with false. change (quantity_fault _ 1000) with (@None order_error). cbv iota zeta.
    change (divides (market_cfg dbg) (m_price (bought n) Buy)) with true. rewrite orb_true_r. cbn [demand first_of]. destruct (m_funded _ _ _ _); [|reflexivity].
    unfold take_crash. change (0 <? m_price (bought n) Buy) with true. cbn [demand first_of]. unfold fill_crash. cbv zeta.
    change (Z.sgn (signed_qty (taken (market_cfg dbg) (bought n) Buy 1000))) with 1. rewrite G. reflexivity. }
  unfold m_exec. cbn [m_crash m_call]. rewrite K. unfold m_market. change (1000 <=? 0) with false. change (quantity_fault _ 1000) with (@None order_error). cbv iota. rewrite F.
  destruct (Z.of_nat n <? market_limit); [|reflexivity]. f_equal. f_equal. unfold bought at 3, with_id, m_fill. cbn [m_book m_held m_reserved m_orders m_bid m_ask m_time m_next].
  f_equal.
  - unfold apply_fill. cbv zeta. change (signed_qty (taken (market_cfg dbg) (bought n) Buy 1000)) with 1000.
    change (fee (c_kind (market_cfg dbg)) (c_scale (market_cfg dbg)) (taken (market_cfg dbg) (bought n) Buy 1000)) with 5. unfold bought. cbn [m_book l_qty l_entry l_due l_cash l_paid taken f_price f_qty].
    destruct n as [|n]; [reflexivity|]. replace (1000 * Z.of_nat (S n) =? 0) with false by lia. replace (Z.sgn (1000 * Z.of_nat (S n)) =? Z.sgn 1000) with true by (symmetry; apply Z.eqb_eq; change (Z.sgn 1000) with 1; lia).
    change (m_price _ Buy) with (101 * bench_scale). change (c_scale (market_cfg dbg)) with bench_scale. cbn [Nat.eqb].
    rewrite Z.abs_eq by lia. f_equal; [lia | apply average_101; lia | lia].
  - unfold margin_after. change (Z.sgn (signed_qty (taken (market_cfg dbg) (bought n) Buy 1000))) with 1. unfold m_pos in G. rewrite G.
    change (margin_at _ _ _) with 9. unfold bought. cbn [m_held]. lia.
  - unfold bought. cbn [m_next]. lia.
Qed.
Lemma markets_run dbg : forall k n, Z.of_nat n <= market_limit -> m_expect (market_cfg dbg) (bought n) (repeat (OpMarket Buy 1000 0) k) =
  if Z.of_nat (n + k) <=? market_limit then Done (bought (n + k), None) else Done (with_id (bought (Z.to_nat market_limit)), Some (ERisk NotEnoughAvailableBalance)).
Proof.
  induction k as [|k IH]; intros n N; cbn [repeat m_expect].
  - rewrite Nat.add_0_r. destruct (Z.leb_spec (Z.of_nat n) market_limit); [reflexivity | lia].
  - rewrite next_market. destruct (Z.ltb_spec (Z.of_nat n) market_limit).
    + rewrite IH by lia. replace (S n + k)%nat with (n + S k)%nat by lia. reflexivity.
    + replace (Z.to_nat market_limit) with n by lia. destruct (Z.leb_spec (Z.of_nat (n + S k)) market_limit); [lia | reflexivity].
Qed.
Lemma quoted_markets dbg n : m_expect (market_cfg dbg) (m_start (market_cfg dbg)) (market_ops n) =
  if Z.of_nat n <=? market_limit then Done (bought n, None) else Done (with_id (bought (Z.to_nat market_limit)), Some (ERisk NotEnoughAvailableBalance)).
Proof. unfold market_ops. cbn [m_expect]. rewrite market_quoted. apply (markets_run dbg n 0). unfold market_limit. lia. Qed.

(** ** Market data for an account without orders or position *)
Definition empty (m : machine) : Prop := m_pos m = 0 /\ m_orders m = [] /\ m_reserved m = 0 /\ m_held m = 0 /\ 0 <= m_free m.
Lemma empty_quote m ru : empty m -> empty (with_quote m ru).
Proof. exact (fun H => H). Qed.
Lemma need_empty c : need c [] 0 = 0.
Proof. reflexivity. Qed.
Lemma empty_update c m ru : empty m -> m_exec c m (OpUpdate ru) =
  match first_of [build_crash c ru; in_debug c (demand (data_valid (ct_pf (c_spec c)) ru) PInvalidUpdateDebug)] with
  | Some w => Panic w | None => Done (with_quote m ru, Ok (OutUpdates [])) end.
Proof.
  intros H. unfold m_exec. cbn [m_crash m_call]. unfold update_crash, m_update. cbv zeta. pose proof (empty_quote m ru H) as (E1 & E2 & E3 & _ & E4).
  rewrite (flat_not_due c _ E1). rewrite E2. cbn [reports flat_map].
  assert (M : m_meet_all c ru (with_quote m ru) = with_quote m ru) by (unfold m_meet_all; rewrite E2; reflexivity). rewrite M.
  assert (C : check_crash c (with_quote m ru) ru = None).
  { unfold check_crash. destruct ru; [reflexivity| | |]; cbv zeta; rewrite M, E2, E3, E1, need_empty; cbn [meet_all_crash first_of]; unfold in_debug, demand; replace (0 <=? _) with true by lia; destruct (c_dbg c); reflexivity. }
  rewrite C. cbn [first_of]. destruct (build_crash c ru); [reflexivity|]. destruct (in_debug c _); reflexivity.
Qed.
Definition harmless (c : config) (ru : raw_update) : Prop := build_crash c ru = None /\ in_debug c (demand (data_valid (ct_pf (c_spec c)) ru) PInvalidUpdateDebug) = None.
Lemma empty_updates c : forall us m, empty m -> (forall u, In u us -> harmless c u) -> exists m', m_expect c m (map OpUpdate us) = Done (m', None) /\ empty m' /\ m_book m' = m_book m.
Proof.
  induction us as [|u us IH]; intros m E H; [exists m; split; [reflexivity | split; [exact E | reflexivity]]|].
  cbn [map m_expect]. rewrite (empty_update c m u E). destruct (H u (or_introl eq_refl)) as [H1 H2]. cbn [first_of]. rewrite H1, H2.
  destruct (IH (with_quote m u) (empty_quote m u E) (fun v X => H v (or_intror X))) as (m' & K1 & K2 & K3). exists m'. split; [exact K1|]. split; [exact K2 | exact K3].
Qed.
Lemma start_empty c : 0 <= c_start c -> empty (m_start c).
Proof. intros H. unfold empty, m_pos, m_free. cbn. repeat split. lia. Qed.

(** ** The programs *)
Lemma bench_limit m dbg n : match bench_run (limit_config m dbg) (limit_ops n) with
  | Done (e, None) => (n <= 200)%nat /\ length (ex_active e) = n /\ wallet_of e = 10000000000 - 100 * Z.of_nat n
  | Done (e, Some x) => (200 < n)%nat /\ x = EMaxNumberOfActiveOrders /\ length (ex_active e) = 200%nat
  | Panic _ => False end.
Proof.
  destruct (configs m dbg) as [-> _]. pose proof (bench_seen (limit_cfg dbg) (limit_ops n) (proj1 (cfg_valid dbg))) as S. unfold limit_ops in *.
  rewrite (quoted_limits dbg (100 * bench_scale) n (or_intror eq_refl)) in S. destruct (Nat.leb_spec n 200) as [B|B]; destruct (seen_of _ _ _ S) as (e & -> & M).
  - split; [exact B|]. pose proof (f_equal m_orders M) as M1. cbn [machine_of m_orders laid] in M1. rewrite M1, rested_length. split; [reflexivity|].
    rewrite <- machine_wallet, M. unfold m_free. cbn [laid m_book ledger_start l_cash m_held m_reserved]. change (value Inverse bench_scale 10000 (100 * bench_scale)) with 100. lia.
  - split; [exact B|]. split; [reflexivity|]. pose proof (f_equal m_orders M) as M1. cbn [machine_of m_orders laid with_id] in M1. rewrite M1. apply rested_length.
Qed.
Lemma bench_check m dbg n k : (n <= 200)%nat -> exists e e', bench_run (limit_config m dbg) (check_ops n k) = Done (e, None) /\
  bench_run (limit_config m dbg) (check_ops n 0) = Done (e', None) /\ machine_of e = machine_of e' /\ length (ex_active e) = n.
Proof.
  intros N. destruct (configs m dbg) as [-> _].
  assert (A : forall j, exists e, bench_run (Done (limit_cfg dbg)) (check_ops n j) = Done (e, None) /\ machine_of e = laid (99 * bench_scale) n).
  { intros j. apply seen_of. rewrite (bench_seen _ _ (proj1 (cfg_valid dbg))). unfold check_ops. rewrite app_comm_cons, expect_app, (quoted_limits dbg _ n (or_introl eq_refl)).
    destruct (Nat.leb_spec n 200); [|lia]. apply checks_run. }
  destruct (A k) as (e & E & M). destruct (A 0%nat) as (e' & E' & M'). exists e, e'. split; [exact E|]. split; [exact E'|]. split; [congruence|].
  pose proof (f_equal m_orders M) as M1. cbn [machine_of m_orders laid] in M1. rewrite M1. apply rested_length.
Qed.
Lemma bench_market m dbg n : match bench_run (market_config m dbg) (market_ops n) with
  | Done (e, None) => Z.of_nat n <= 1111111110 /\ position_quantity (ex_pos e) = 1000 * Z.of_nat n /\ wallet_of e = 10000000000 - 9 * Z.of_nat n
  | Done (e, Some x) => 1111111110 < Z.of_nat n /\ x = ERisk NotEnoughAvailableBalance /\ wallet_of e = 10
  | Panic _ => False end.
Proof.
  destruct (configs m dbg) as (_ & -> & _). pose proof (bench_seen (market_cfg dbg) (market_ops n) (proj1 (proj2 (cfg_valid dbg)))) as S. rewrite quoted_markets in S.
  destruct (Z.leb_spec (Z.of_nat n) market_limit) as [B|B]; destruct (seen_of _ _ _ S) as (e & -> & M).
  - split; [exact B|]. split; [exact (f_equal m_pos M)|]. rewrite <- machine_wallet, M. unfold m_free. cbn [bought m_book l_cash m_held m_reserved]. lia.
  - split; [exact B|]. split; [reflexivity|]. rewrite <- machine_wallet, M. unfold m_free, with_id, bought. cbn [m_book l_cash m_held m_reserved]. rewrite Z2Nat.id by discriminate. reflexivity.
Qed.

Lemma times_in {A} (x : A) l : forall k, In x (times k l) -> In x l.
Proof. induction k as [|k IH]; [intros []|]. cbn [times]. intros H. apply in_app_or in H as [H|H]; [exact H | exact (IH H)]. Qed.
Lemma times_map {A B} (f : A -> B) l : forall k, times k (map f l) = map f (times k l).
Proof. induction k as [|k IH]; [reflexivity|]. cbn [times]. rewrite IH, map_app. reflexivity. Qed.
Lemma bench_data c us : valid_config c -> (forall u, In u us -> harmless c u) ->
  exists e, bench_run (Done c) (map OpUpdate us) = Done (e, None) /\ position_quantity (ex_pos e) = 0 /\ wallet_of e = c_start c.
Proof.
  intros V H. destruct (empty_updates c us (m_start c)) as (m' & K1 & (P1 & P2 & P3 & P4 & P5) & K3); [apply start_empty; pose proof (vc_start _ V); lia | exact H|].
  pose proof (bench_seen c (map OpUpdate us) V) as S. rewrite K1 in S. destruct (seen_of _ _ _ S) as (e & E & M). exists e. split; [exact E|].
  split; [rewrite <- P1, <- M; reflexivity|]. rewrite <- machine_wallet, M. unfold m_free. rewrite K3, P3, P4. cbn [m_start m_book ledger_start l_cash]. lia.
Qed.
Lemma ticked s p b : s mod p = 0 -> b mod p = 0 -> p <> 0 -> (b + s) mod p = 0 /\ (b - s) mod p = 0.
Proof. intros A B P. apply Z.mod_divide in A, B; try exact P. split; apply Z.mod_divide; try exact P; [apply Z.divide_add_r | apply Z.divide_sub_r]; assumption. Qed.
Lemma bench_replay m dbg trades k l : (dbg = true -> forall t, In t trades -> tr_price t mod 50000 = 0) ->
  exists e, bench_run (trade_config m dbg) (replay_ops trades k l) = Done (e, None) /\ position_quantity (ex_pos e) = 0 /\ wallet_of e = bench_scale.
Proof.
  intros H. destruct (configs m dbg) as (_ & _ & -> & _). unfold replay_ops.
  replace (map (fun t => OpUpdate (RTrade t)) trades) with (map OpUpdate (map RTrade trades)) by (rewrite map_map; reflexivity).
  replace (map (fun t => OpUpdate (quote_around t)) trades) with (map OpUpdate (map quote_around trades)) by (rewrite map_map; reflexivity).
  rewrite !times_map, <- map_app. apply (bench_data (trade_cfg dbg)); [apply (cfg_valid dbg)|].
  intros u U. apply in_app_or in U as [U|U]; apply in_map_iff in U as (t & <- & T); apply times_in in T; (split; [reflexivity|]); unfold in_debug; change (c_dbg (trade_cfg dbg)) with dbg; destruct dbg; try reflexivity; specialize (H eq_refl t T).
  - unfold demand, data_valid, price_valid. change (pf_tick _) with 50000. rewrite H. reflexivity.
  - destruct (ticked bench_scale 50000 (tr_price t) eq_refl H ltac:(discriminate)) as [A B]. unfold demand, data_valid, quote_around, quote_valid, price_valid. cbn [bb_bid bb_ask].
    change (pf_tick _) with 50000. rewrite A, B. unfold bench_scale. replace (_ <? _) with true by lia. reflexivity.
Qed.
Lemma bench_candles m dbg chunks k : (forall l, In l chunks -> l <> [] /\ forall t, In t l -> tr_price t mod 5 = 0 /\ 0 < tr_qty t) ->
  exists c e, candle_config m dbg = Done c /\ bench_run (candle_config m dbg) (candle_ops c chunks k) = Done (e, None) /\ position_quantity (ex_pos e) = 0 /\ wallet_of e = 10.
Proof.
  intros H. destruct (configs m dbg) as (_ & _ & _ & ->). exists (candle_cfg dbg). unfold candle_ops.
  replace (map (fun l => OpUpdate (chunk_candle (candle_cfg dbg) l)) chunks) with (map OpUpdate (map (chunk_candle (candle_cfg dbg)) chunks)) by (rewrite map_map; reflexivity).
  rewrite times_map. destruct (bench_data (candle_cfg dbg) (times k (map (chunk_candle (candle_cfg dbg)) chunks))) as (e & E & P & W); [apply (cfg_valid dbg)| |exists e; auto].
  intros u U. apply times_in, in_map_iff in U as (l & <- & L). destruct (H l L) as [N A].
  assert (T : In (last l {| tr_price := 0; tr_qty := 0; tr_side := Buy; tr_ts := 0 |}) l).
  { destruct (exists_last N) as (l' & x & ->). rewrite last_last. apply in_or_app. right. left. reflexivity. }
  destruct (A _ T) as [T1 T2]. split; [|unfold in_debug, demand; destruct (c_dbg _); reflexivity].
  unfold chunk_candle, build_crash. set (t := last l _) in *. change (pf_tick (ct_pf (c_spec (candle_cfg dbg)))) with 5.
  assert (Q : quote_valid (ct_pf (c_spec (candle_cfg dbg))) {| bb_bid := tr_price t; bb_ask := tr_price t + 10; bb_ts := tr_ts t |} = true).
  { destruct (ticked 10 5 (tr_price t) eq_refl T1 ltac:(discriminate)) as [B _]. unfold quote_valid, price_valid. cbn [bb_bid bb_ask]. change (pf_tick _) with 5. rewrite T1, B. cbn. lia. }
  assert (X : existsb (fun t => price_valid (ct_pf (c_spec (candle_cfg dbg))) (tr_price t)) l = true).
  { apply existsb_exists. exists t. split; [exact T|]. unfold price_valid. change (pf_tick _) with 5. rewrite T1. reflexivity. }
  assert (Y : forallb (fun t => 0 <? tr_qty t) l = true) by (apply forallb_forall; intros x I; apply Z.ltb_lt; exact (proj2 (A x I))).
  rewrite Q, X, Y. destruct l; [contradiction|]. unfold in_debug. destruct (c_dbg _); reflexivity.
Qed.
Lemma bench_offtick m : bench_run (trade_config m true) (replay_ops [{| tr_price := 50001; tr_qty := 1; tr_side := Buy; tr_ts := 1 |}] 1 0) = Panic PInvalidUpdateDebug.
Proof. destruct m; vm_compute; reflexivity. Qed.
