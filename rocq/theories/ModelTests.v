(** The tests of the repository, replayed against the model by computation.  They are evidence that the
    model behaves as the code does; the tests themselves could not be run here.
    Each example names the test it transcribes; the expected values are those of the test.
    Timestamps, sides, prices and quantities are the ones of the test; decimals are written with the
    number of places [D] of the test. *)
From Verif Require Import Base Types Filters Accounting Currency Position OrderBook OrderMargin
  Risk MarketUpdate Tracker Exchange.

(** [Currency::new(n, places)] for [D = 5], [D = 4] and [D = 2]. *)
(** [every f l]: [f] holds of each element of [l] (a conjunction, so that it computes). *)
Fixpoint every {A} (f : A -> Prop) (l : list A) : Prop :=
  match l with [] => True | x :: r => f x /\ every f r end.
Definition v5 (n places : Z) : Z := n * 10 ^ (5 - places).
Definition v4 (n places : Z) : Z := n * 10 ^ (4 - places).
Definition v2 (n places : Z) : Z := n * 10 ^ (2 - places).
Definition S5 : Z := 100000.
Definition sc4 : Z := 10000.
Definition u (n : Z) : Z := v5 n 0.

(** src/mock_exchange.rs:15-22, the fees of the tests. *)
Definition fee_maker5 : Z := v5 2 4.
Definition fee_taker5 : Z := v5 6 4.

(** ** Single functions *)

(** src/types/smol_currency/mod.rs, [convert_base_to_quote], [convert_quote_to_base],
    [quote_currency_pnl] and [base_currency_pnl]. *)
Example test_convert_base_to_quote : convert_from Linear sc4 (v4 5 1) (v4 100 0) = Done (v4 50 0).
Proof. vm_compute. reflexivity. Qed.
Example test_convert_quote_to_base : convert_from Inverse sc4 (v4 250 0) (v4 1000 0) = Done (v4 25 2).
Proof. vm_compute. reflexivity. Qed.
Example test_quote_currency_pnl : pnl Linear sc4 (v4 100 0) (v4 110 0) (v4 5 0) = Done (v4 50 0).
Proof. vm_compute. reflexivity. Qed.
Example test_base_currency_pnl : pnl Inverse sc4 (v4 100 0) (v4 200 0) (v4 500 0) = Done (v4 25 1).
Proof. vm_compute. reflexivity. Qed.

(** src/types/side.rs, [side_from_taker_quantity] and [side_from_taker_quantity_panic]. *)
Example test_side_from_taker_quantity :
  side_from_taker_quantity (v4 1 0) = Done Buy /\ side_from_taker_quantity (v4 (-1) 0) = Done Sell
  /\ side_from_taker_quantity 0 = Panic PSideZero.
Proof. vm_compute. repeat split. Qed.

(** src/types/leverage.rs, [leverage] and [leverage_init_margin_req] (with [D = 0]). *)
Example test_leverage : forallb (fun n => is_ok (leverage_new 1 (Z.of_nat n))) (seq 1 99) = true.
Proof. vm_compute. reflexivity. Qed.
Example test_leverage_init_margin_req :
  init_margin_req 1 1 = Done 1 /\ init_margin_req 1 2 = ddiv 1 1 2.
Proof. vm_compute. repeat split. Qed.

(** src/order_filters/quantity_filter.rs, [quantity_filter] and [quantity_filter_2] (with [D = 2]). *)
Example test_quantity_filter :
  let f := {| qf_min := Some (v2 10 0); qf_max := Some (v2 1000 0); qf_tick := v2 1 0 |} in
  validate_order_quantity f 0 = Done (Err QuantityTooLow) /\
  validate_order_quantity f (v2 50 0) = Done (Ok tt) /\
  validate_order_quantity f (v2 5 0) = Done (Err QuantityTooLow) /\
  validate_order_quantity f (v2 5000 0) = Done (Err QuantityTooHigh) /\
  validate_order_quantity f (v2 505 1) = Done (Err InvalidQuantityStepSize).
Proof. vm_compute. repeat split. Qed.
Example test_quantity_filter_2 :
  let f := {| qf_min := None; qf_max := None; qf_tick := v2 1 0 |} in
  validate_order_quantity f 0 = Done (Err QuantityTooLow) /\
  validate_order_quantity f (v2 5 1) = Done (Err InvalidQuantityStepSize).
Proof. vm_compute. repeat split. Qed.

(** src/order_filters/price_filter.rs, [price_filter] (with [D = 2]). *)
Example test_price_filter :
  let f := {| pf_min := Some (v2 1 1); pf_max := Some (v2 1000 0); pf_tick := v2 1 1;
              pf_up := v2 12 1; pf_down := v2 8 1 |} in
  let validate p := validate_limit_price 100 f p (v2 100 0) in
  validate (v2 99 0) = Done (Ok tt) /\
  validate (v2 5 2) = Done (Err LimitPriceBelowMin) /\
  validate (v2 1001 0) = Done (Err LimitPriceAboveMax) /\
  validate (v2 120 0) = Done (Ok tt) /\
  validate (v2 121 0) = Done (Err LimitPriceAboveMultiple) /\
  validate (v2 80 0) = Done (Ok tt) /\
  validate (v2 79 0) = Done (Err LimitPriceBelowMultiple) /\
  validate (v2 10005 2) = Done (Err InvalidOrderPriceStepSize).
Proof. vm_compute. repeat split. Qed.

(** src/sample_returns_trigger.rs, [sample_returns_trigger]. *)
Example test_sample_returns_trigger :
  let t0 := trigger_new 100000000000 in
  let '(t1, f1) := should_trigger t0 200000000000 in
  let '(t2, f2) := should_trigger t1 250000000000 in
  let '(t3, f3) := should_trigger t2 300000000000 in
  f1 = true /\ tg_init t1 = false /\ tg_last t1 = 200000000000 /\ f2 = false /\ f3 = true.
Proof. vm_compute. repeat split. Qed.

(** src/account_tracker/full_track.rs, [full_track_update] (the f32 drawdown is not modelled). *)
Example test_full_track_update :
  exists t0, tracker_new (v4 1000 0) = Done t0 /\
  let t := tracker_update t0 {| ms_bid := v4 100 0; ms_ask := v4 101 0; ms_ts := 1000000; ms_step := 0 |} in
  tk_sub_limit t = 0 /\ tk_cancelled t = 0 /\ tk_fully_filled t = 0 /\ tk_sub_market t = 0 /\
  tk_filled_market t = 0 /\ tk_ts_first t = 1000000 /\ tk_ts_last t = 1000000 /\
  tk_price_first t = v4 1005 1 /\ tk_price_last t = v4 1005 1.
Proof. eexists. split; [vm_compute; reflexivity|]. vm_compute. repeat split. Qed.

(** ** Orders, books and market updates *)

Definition pending (sd : side) (price qty id ts : Z) : limit_order :=
  limit_into_pending {| nl_uid := 0; nl_side := sd; nl_price := price; nl_rem := qty |} id ts.

Definition sides := [Buy; Sell].
Definition matrix2 {A B} (la : list A) (lb : list B) (f : A -> B -> Prop) : Prop :=
  every (fun x => f (fst x) (snd x)) (list_prod la lb).
Definition matrix3 {A B C} (la : list A) (lb : list B) (lc : list C) (f : A -> B -> C -> Prop) : Prop :=
  matrix2 (list_prod la lb) lc (fun x => f (fst x) (snd x)).
Definition matrix4 {A B C D} (la : list A) (lb : list B) (lc : list C) (ld : list D)
  (f : A -> B -> C -> D -> Prop) : Prop :=
  matrix3 (list_prod la lb) lc ld (fun x => f (fst x) (snd x)).
Definition matrix5 {A B C D E} (la : list A) (lb : list B) (lc : list C) (ld : list D) (le : list E)
  (f : A -> B -> C -> D -> E -> Prop) : Prop :=
  matrix4 (list_prod la lb) lc ld le (fun x => f (fst x) (snd x)).
Ltac replay := vm_compute; repeat split.

(** src/types/limit_order.rs, [limit_order_fill_full] and [limit_order_fill_partial]. *)
Example test_limit_order_fill_full :
  matrix3 sides [100; 110; 120] [1; 2; 3] (fun sd p q =>
    match order_fill sc4 (pending sd (v4 p 0) (v4 q 0) 0 0) (v4 q 0) 0 with
    | Done (_, Some f) => fl_avg f = v4 p 0 /\ fl_qty f = v4 q 0 /\ fl_exec_ts f = 0 /\ fl_id f = 0
    | _ => False
    end).
Proof. replay. Qed.
Example test_limit_order_fill_partial :
  matrix3 sides [100; 110; 120] [1; 2; 3] (fun sd p q =>
    let half := Z.quot (v4 q 0 * sc4) (v4 2 0) in
    match order_fill sc4 (pending sd (v4 p 0) (v4 q 0) 0 0) half 0 with
    | Done (o, None) => lo_filled o = FilledQ half (v4 p 0)
    | _ => False
    end).
Proof. replay. Qed.

(** src/active_limit_orders.rs, [active_limit_orders]: capacity three. *)
Example test_active_limit_orders :
  let o0 := pending Buy (u 100) (u 5) 0 0 in
  let o1 := pending Buy (u 200) (u 1) 1 1 in
  let o i := pending Buy (u 200) (u 1) i 3 in
  book_insert 3 [] o0 = ([o0], Ok None) /\
  get_by_id [o0] 0 = Some o0 /\
  remove_by_order_id [o0] 0 = Some (o0, []) /\
  book_insert 3 [] o1 = ([o1], Ok None) /\
  get_by_id [o1] 0 = None /\
  get_by_id [o1] 1 = Some o1 /\
  remove_by_order_id [o1] 1 = Some (o1, []) /\
  book_insert 3 [] (o 2) = ([o 2], Ok None) /\
  book_insert 3 [o 2] (o 3) = ([o 2; o 3], Ok None) /\
  book_insert 3 [o 2; o 3] (o 4) = ([o 2; o 3; o 4], Ok None) /\
  book_insert 3 [o 2; o 3; o 4] o1 = ([o 2; o 3; o 4], Err EMaxNumberOfActiveOrders).
Proof. vm_compute. repeat split. Qed.

(** src/market_update/trade_update.rs, [trade_limit_order_filled_some] and
    [trade_limit_order_filled_none] (with [D = 2]). *)
Definition offset2 (sd : side) : Z := match sd with Buy => v2 (-1) 0 | Sell => v2 1 0 end.
Example test_trade_limit_order_filled_some :
  matrix3 [100; 110; 120] [1; 2; 3] sides (fun p q sd =>
    trade_fills true {| tr_price := v2 p 0; tr_qty := v2 q 0; tr_side := sd; tr_ts := 0 |}
      (pending (side_inverted sd) (v2 p 0 + offset2 sd) (v2 q 0) 0 0) = Done (Some (v2 q 0))).
Proof. replay. Qed.
Example test_trade_limit_order_filled_none :
  matrix3 [100; 110; 120] [1; 2; 3] sides (fun p q sd =>
    let half := Z.quot (v2 q 0 * 100) (v2 2 0) in
    trade_fills true {| tr_price := v2 p 0; tr_qty := v2 q 0; tr_side := sd; tr_ts := 0 |}
      (pending (side_inverted sd) (v2 p 0 + offset2 sd) half 0 0) = Done (Some half)).
Proof. replay. Qed.

(** src/market_update/smart_candle.rs, the six tests. *)
Definition tr (ts p q : Z) (sd : side) : trade :=
  {| tr_price := u p; tr_qty := u q; tr_side := sd; tr_ts := ts |}.
Definition sm_bba : bba := {| bb_bid := u 100; bb_ask := u 101; bb_ts := 0 |}.
Definition sm_pf : outcome (result config_error price_filter) :=
  price_filter_new S5 None None (u 1) (u 2) (v5 5 1).
Definition sm_build (ts : list trade) : outcome smart_candle :=
  f <- sm_pf ;; match f with Ok f => smart_candle_new true ts sm_bba f | Err _ => Panic PSmartBba end.
Definition lv (p q : Z) : Z * Z := (u p, u q).
Definition sm (buys sells : list (Z * Z)) (ts high low : Z) : smart_candle :=
  {| sc_high := u high; sc_low := u low; sc_buys := buys; sc_sells := sells; sc_bba := sm_bba; sc_ts := ts |}.
Example test_smart_candle_no_buys : sm_build [tr 0 100 1 Sell] = Done (sm [] [lv 100 1] 0 100 100).
Proof. vm_compute. reflexivity. Qed.
Example test_smart_candle_no_sells : sm_build [tr 0 100 2 Buy] = Done (sm [lv 100 2] [] 0 100 100).
Proof. vm_compute. reflexivity. Qed.
Example test_smart_candle_simple :
  sm_build [tr 0 100 2 Buy; tr 0 100 1 Sell] = Done (sm [lv 100 2] [lv 100 1] 0 100 100).
Proof. vm_compute. reflexivity. Qed.
Example test_smart_candle_sell_side :
  sm_build [tr 0 100 1 Sell; tr 1 100 1 Sell; tr 2 99 3 Sell; tr 3 101 1 Sell]
  = Done (sm [] [lv 99 3; lv 100 5; lv 101 6] 3 101 99).
Proof. vm_compute. reflexivity. Qed.
Example test_smart_candle_buy_side :
  sm_build [tr 0 100 1 Buy; tr 1 100 1 Buy; tr 2 99 3 Buy; tr 3 101 1 Buy]
  = Done (sm [lv 101 1; lv 100 3; lv 99 6] [] 3 101 99).
Proof. vm_compute. reflexivity. Qed.
Example test_smart_candle_execute_limit_order :
  let candle := sm [lv 102 1; lv 101 2; lv 100 4; lv 99 7] [lv 98 2; lv 99 5; lv 100 7; lv 101 8] 8 102 98 in
  sm_build [tr 0 100 1 Buy; tr 1 100 1 Buy; tr 2 99 3 Buy; tr 3 101 1 Buy; tr 3 102 1 Buy;
            tr 4 100 1 Sell; tr 5 100 1 Sell; tr 6 99 3 Sell; tr 7 98 2 Sell; tr 8 101 1 Sell]
  = Done candle /\
  smart_fills candle (pending Buy (u 100) (u 15) 0 0) = Some (u 5) /\
  smart_fills candle (pending Sell (u 100) (u 15) 0 0) = Some (u 2).
Proof. vm_compute. repeat split. Qed.

(** ** Order margin: src/order_margin.rs *)

Definition cfg_of (k : kind) (s lev : Z) : config :=
  {| c_kind := k; c_scale := s; c_dbg := true; c_start := 1000 * s; c_max := 10;
     c_spec := {| ct_imr := Z.quot (s * s) (lev * s); ct_mm := 0; ct_pf := price_filter_default s;
                  ct_qf := quantity_filter_default s; ct_maker := 0; ct_taker := 0 |};
     c_sample_s := 3600 |}.
Definition inner (q e f : Z) : position_inner := {| pi_qty := q; pi_entry := e; pi_fees := f |}.
Fixpoint om_updates (book l : list limit_order) : outcome (list limit_order) :=
  match l with
  | [] => Done book
  | o :: rest => '(b, r) <- om_update 10 book o ;;
                 match r with Ok _ => om_updates b rest | Err _ => Panic POmUpdateSame end
  end.
Fixpoint om_removes (book : list limit_order) (ids : list Z) : outcome (list limit_order) :=
  match ids with
  | [] => Done book
  | i :: rest => b <- om_remove book (ByOrderId i) ;; om_removes b rest
  end.
Definition margin_after (c : config) (pos : position) (l : list limit_order) : outcome Z :=
  b <- om_updates [] l ;; order_margin c b pos.
Definition ids (n : nat) : list Z := map Z.of_nat (seq 0 n).
Definition val4 (lev q p : Z) : Z := dmul sc4 (dmul sc4 (v4 q 0) (v4 p 0)) (ct_imr (c_spec (cfg_of Linear sc4 lev))).

Example test_order_margin_neutral_no_orders :
  every (fun lev => order_margin (cfg_of Linear sc4 lev) [] Neutral = Done 0) [1; 2; 5].
Proof. replay. Qed.
Example test_order_margin_long_no_orders :
  matrix3 [1; 2; 5] [1; 2; 5] [100; 200; 300] (fun lev q e =>
    order_margin (cfg_of Linear sc4 lev) [] (Long (inner (v4 q 0) (v4 e 0) 0)) = Done 0).
Proof. replay. Qed.
Example test_order_margin_short_no_orders :
  matrix3 [1; 2; 5] [1; 2; 5] [100; 200; 300] (fun lev q e =>
    order_margin (cfg_of Linear sc4 lev) [] (Short (inner (v4 q 0) (v4 e 0) 0)) = Done 0).
Proof. replay. Qed.
Example test_order_margin_neutral_orders_of_same_side :
  matrix5 [1; 2; 5] sides [100; 150; 200] [1; 2; 3] [1; 2; 3]%nat (fun lev sd p q n =>
    let orders := map (fun i => pending sd (v4 p 0) (v4 q 0) i i) (ids n) in
    margin_after (cfg_of Linear sc4 lev) Neutral orders = Done (Z.of_nat n * val4 lev q p) /\
    (b <- om_updates [] orders ;; b' <- om_removes b (ids n) ;;
     order_margin (cfg_of Linear sc4 lev) b' Neutral) = Done 0).
Proof. replay. Qed.
Example test_order_margin_neutral_orders_of_opposite_side :
  matrix4 [1; 2; 5] [100; 150; 200] [1; 2; 3] [1; 2; 3]%nat (fun lev p q n =>
    let orders := map (fun i => pending Buy (v4 p 0) (v4 q 0) i i) (ids n)
                  ++ map (fun i => pending Sell (v4 p 0) (v4 q 0) (Z.of_nat n + i) (Z.of_nat n + i)) (ids n) in
    margin_after (cfg_of Linear sc4 lev) Neutral orders = Done (Z.of_nat n * val4 lev q p) /\
    (b <- om_updates [] orders ;; b' <- om_removes b (ids (n + n)) ;;
     order_margin (cfg_of Linear sc4 lev) b' Neutral) = Done 0).
Proof. replay. Qed.
Example test_order_margin_long_orders_of_same_qty :
  matrix5 [1; 2; 5] sides [70; 90; 110] [1; 2; 3] [85; 100; 125] (fun lev sd p q e =>
    let i := inner (v4 q 0) (v4 e 0) (dmul sc4 (v4 q 0) (v4 p 0)) in
    margin_after (cfg_of Linear sc4 lev) (match sd with Buy => Short i | Sell => Long i end)
      [pending sd (v4 p 0) (v4 q 0) 0 0] = Done 0).
Proof. replay. Qed.
Example test_order_margin_neutral_update_partial_fills :
  matrix4 [1; 2; 5] sides [70; 90; 110] [1; 2; 3] (fun lev sd p q =>
    let half := Z.quot (u q * S5) (u 2) in
    let o := pending sd (u p) (u q) 0 0 in
    match order_fill S5 o half 0 with
    | Done (o', None) =>
        lo_rem o' = half /\
        margin_after (cfg_of Linear S5 lev) Neutral [o; o']
        = Done (dmul S5 (dmul S5 half (u p)) (Z.quot (S5 * S5) (lev * S5)))
    | _ => False
    end).
Proof. replay. Qed.

Definition om_orders (f : Z -> Z -> Z) (s : list (side * Z)) : list limit_order :=
  map (fun x => pending (fst (snd x)) (f (snd (snd x)) 0) (f 1 0) (Z.of_nat (fst x)) 0)
      (combine (seq 0 (length s)) s).
Example test_order_margin_no_position :
  let m l := margin_after (cfg_of Linear sc4 1) Neutral (om_orders v4 l) in
  m [] = Done 0 /\ m [(Buy, 90)] = Done (v4 90 0) /\
  m [(Buy, 90); (Sell, 100)] = Done (v4 100 0) /\
  m [(Buy, 90); (Sell, 100); (Sell, 120)] = Done (v4 220 0).
Proof. replay. Qed.
Example test_order_margin_with_long :
  let m l := margin_after (cfg_of Linear S5 1) (Long (inner (u 1) (u 100) (v5 2 2))) (om_orders v5 l) in
  m [] = Done 0 /\ m [(Buy, 90)] = Done (u 90) /\
  m [(Buy, 90); (Sell, 100)] = Done (u 90) /\
  m [(Buy, 90); (Sell, 100); (Sell, 120)] = Done (u 120) /\
  m [(Buy, 90); (Sell, 100); (Sell, 120); (Buy, 95)] = Done (u 185).
Proof. replay. Qed.
Example test_order_margin_with_short :
  let m l := margin_after (cfg_of Linear S5 1) (Short (inner (u 1) (u 100) (v5 2 2))) (om_orders v5 l) in
  m [] = Done 0 /\ m [(Buy, 90)] = Done 0 /\
  m [(Buy, 90); (Sell, 100)] = Done (u 100) /\
  m [(Buy, 90); (Sell, 100); (Sell, 120)] = Done (u 220) /\
  m [(Buy, 90); (Sell, 100); (Sell, 120); (Buy, 95)] = Done (u 220).
Proof. replay. Qed.

(** ** Risk engine: src/risk_engine/isolated_margin.rs *)

Definition risk_cfg (lev : Z) : outcome config :=
  ct <- contract_new S5 (lev * S5) (v5 5 1) (price_filter_default S5) (quantity_filter_default S5)
          fee_maker5 fee_taker5 ;;
  match ct with
  | Ok ct => match config_new Linear S5 true (u 1000) 10 ct 3600 with
             | Ok c => Done c | Err _ => Panic PTrackerStart end
  | Err _ => Panic PTrackerStart
  end.
Definition on_risk (lev : Z) (f : config -> Prop) : Prop :=
  match risk_cfg lev with Done c => f c | Panic _ => False end.
Example test_check_maintenance_margin_long :
  every (fun x => on_risk (fst x) (fun c =>
    let check bid ask p := check_maintenance_margin c bid ask p in
    let p := Long (inner (u 1) (u 100) (v5 2 2)) in
    let l := u (snd x) in
    check (u 100) (u 101) Neutral = Ok tt /\ check (u 100) (u 101) p = Ok tt /\
    check (u 200) (u 201) p = Ok tt /\
    check (l - u 1) l p = Err Liquidate /\ check l (l + u 1) p = Ok tt)) [(2, 75); (3, 84); (5, 90)].
Proof. replay. Qed.
Example test_check_maintenance_margin_short :
  every (fun x => on_risk (fst x) (fun c =>
    let check bid ask p := check_maintenance_margin c bid ask p in
    let p := Short (inner (u 1) (u 100) (v5 2 2)) in
    let l := u (snd x) in
    check (u 100) (u 101) p = Ok tt /\
    check (l - u 1) l p = Err Liquidate /\ check (l - u 1 - u 1) (l - u 1) p = Ok tt))
    [(2, 126); (3, 117); (5, 111)].
Proof. replay. Qed.

(** ** Positions: src/position_inner.rs and src/position.rs *)

Definition start5 : outcome accounts := accounting_new true (u 1000).
Definition pays (q p : Z) : Z := dmul S5 (dmul S5 q p) fee_maker5.
Definition m5 (lev amount : Z) : Z := dmul S5 amount (Z.quot (S5 * S5) (lev * S5)).

Example test_position_inner_new :
  every (fun lev =>
    match (a <- start5 ;; inner_new (cfg_of Linear S5 lev) a (v5 5 1) (u 100) (pays (v5 5 1) (u 100))) with
    | Done (p, a) => p = inner (v5 5 1) (u 100) (pays (v5 5 1) (u 100)) /\
        margin_balance_of a POSITION_MARGIN = m5 lev (u 50) /\
        margin_balance_of a WALLET = u 1000 - m5 lev (u 50)
    | Panic _ => False
    end) [1; 2; 5].
Proof. replay. Qed.
Example test_position_inner_increase_contracts :
  every (fun lev =>
    let c := cfg_of Linear S5 lev in
    let f0 := pays (v5 5 1) (u 100) in let f1 := pays (v5 5 1) (u 150) in
    match (a <- start5 ;; '(p, a) <- inner_new c a (v5 5 1) (u 100) f0 ;;
           increase_contracts c p a (v5 5 1) (u 150) f1) with
    | Done (p, a) => p = inner (u 1) (u 125) (f0 + f1) /\
        margin_balance_of a POSITION_MARGIN = m5 lev (u 125) /\
        margin_balance_of a WALLET = u 1000 - m5 lev (u 125)
    | Panic _ => False
    end) [1; 2; 5].
Proof. replay. Qed.
Example test_position_inner_decrease_contracts_basic :
  every (fun lev =>
    let c := cfg_of Linear S5 lev in
    let f := pays (u 5) (u 100) in
    let half_fee := Z.quot (f * S5) (u 2) in
    match (a <- start5 ;; '(p, a) <- inner_new c a (u 5) (u 100) f ;;
           decrease_contracts c p a (v5 25 1) (u 100) true half_fee) with
    | Done (p, a) => p = inner (v5 25 1) (u 100) 0 /\
        margin_balance_of a POSITION_MARGIN = m5 lev (u 250) /\
        margin_balance_of a WALLET = u 1000 - m5 lev (u 250) - dmul S5 f (v5 15 1) /\
        match decrease_contracts c p a (v5 25 1) (u 100) true half_fee with
        | Done (p, a) => p = inner 0 (u 100) 0 /\
            margin_balance_of a POSITION_MARGIN = 0 /\
            margin_balance_of a WALLET = u 1000 - dmul S5 f (u 2)
        | Panic _ => False
        end
    | Panic _ => False
    end) [1; 2; 5].
Proof. replay. Qed.
(** [position_inner_decrease_contracts_win] (exit 110) and [position_inner_decrease_contracts_2] (exit 90). *)
Example test_position_inner_decrease_contracts_pnl :
  matrix3 [1; 2; 5] sides [(110, 25); (90, -25)] (fun lev sd x =>
    let c := cfg_of Linear S5 lev in
    let f := pays (u 5) (u 100) in
    let long := match sd with Buy => true | Sell => false end in
    let gain := u (snd x * match sd with Buy => 1 | Sell => -1 end) in
    match (a <- start5 ;; '(p, a) <- inner_new c a (u 5) (u 100) f ;;
           decrease_contracts c p a (v5 25 1) (u (fst x)) long (Z.quot (f * S5) (u 2))) with
    | Done (p, a) => pi_qty p = v5 25 1 /\ pi_entry p = u 100 /\ inner_total_cost c p = Done (u 250) /\
        margin_balance_of a POSITION_MARGIN = m5 lev (u 250) /\
        margin_balance_of a WALLET = u 1000 + gain - m5 lev (u 250) - dmul S5 f (v5 15 1)
    | Panic _ => False
    end).
Proof. replay. Qed.
(** [position_inner_decrease_contracts_inverse] (ignored in the repository, but it holds for the model). *)
Example test_position_inner_decrease_contracts_inverse :
  every (fun lev =>
    let c := cfg_of Inverse S5 lev in
    let f := dmul S5 (u 5) fee_maker5 in
    match (a <- accounting_new true (u 10) ;; '(p, a) <- inner_new c a (u 500) (u 100) f ;;
           decrease_contracts c p a (u 250) (u 200) true (Z.quot (f * S5) (u 2))) with
    | Done (p, a) => pi_qty p = u 250 /\ pi_entry p = u 100 /\ inner_total_cost c p = Done (v5 25 1) /\
        margin_balance_of a POSITION_MARGIN = m5 lev (v5 25 1) /\
        margin_balance_of a WALLET = v5 1125 2 - m5 lev (v5 25 1) - dmul S5 f (v5 15 1)
    | Panic _ => False
    end) [1; 2; 5].
Proof. replay. Qed.
Example test_position_inner_entry_price_linear :
  every (fun q =>
    match (a <- start5 ;; inner_new (cfg_of Linear S5 1) a (u q) (u 100) 0) with
    | Done (p, _) => pi_entry p = u 100 | Panic _ => False end) [1; 2; 5; 9].
Proof. replay. Qed.
Example test_position_inner_entry_price_inverse :
  every (fun q =>
    match (a <- accounting_new true (u 10) ;; inner_new (cfg_of Inverse S5 1) a (u q) (u 100) 0) with
    | Done (p, _) => pi_entry p = u 100 | Panic _ => False end) [10; 20; 50; 90].
Proof. replay. Qed.

(** src/position.rs, [position_change_position_2]: the test closes a long whose posted margin is two
    units larger than the margin of its truncated entry price.  In the model (and by the arithmetic of the
    test, whatever the rounding of the product) the margin is not freed completely, so a debug build
    panics at the assertion position.rs:160-165; a release build leaves the two units posted.
    ([position_change_position] uses accounting that ignores all transfers; it is in MockTests.v.) *)
Definition closing_accounts : accounts :=
  {| ac_wallet := {| ta_debits := 1499293480; ta_credits := 1498785120 |};
     ac_om := {| ta_debits := 499293480; ta_credits := 499293480 |};
     ac_pm := {| ta_debits := 999491640; ta_credits := 0 |};
     ac_fee := {| ta_debits := 0; ta_credits := 0 |};
     ac_broker := {| ta_debits := 0; ta_credits := 0 |};
     ac_treasury := {| ta_debits := 0; ta_credits := 1000000000 |} |}.
Definition release (c : config) : config :=
  {| c_kind := c_kind c; c_scale := c_scale c; c_dbg := false; c_start := c_start c; c_max := c_max c;
     c_spec := c_spec c; c_sample_s := c_sample_s c |}.
Example test_position_change_position_2 :
  let c := cfg_of Linear S5 1 in
  let close c := change_position c (Long (inner 16800 5949354994 600056)) closing_accounts 16800 6001260000 Sell 0 in
  close c = Panic PCloseMarginDebug /\
  match close (release c) with
  | Done (p, a) => p = Neutral /\ margin_balance_of a POSITION_MARGIN = 2
  | Panic _ => False
  end.
Proof. replay. Qed.

(** ** Whole exchanges *)

(** src/mock_exchange.rs:27-48, 53-75 and 78-105, in a debug build. *)
Definition mock (k : kind) (qf : quantity_filter) (start max : Z) : outcome config :=
  ct <- contract_new S5 S5 (v5 5 1) (price_filter_default S5) qf fee_maker5 fee_taker5 ;;
  match ct with
  | Ok ct => match config_new k S5 true start max ct 3600 with
             | Ok c => Done c | Err _ => Panic PTrackerStart end
  | Err _ => Panic PTrackerStart
  end.
Definition mock_linear : outcome config := mock Linear {| qf_min := None; qf_max := None; qf_tick := v5 1 2 |} (u 1000) 10.
Definition mock_linear_tracked : outcome config := mock Linear {| qf_min := None; qf_max := None; qf_tick := v5 1 2 |} (u 1000) 200.
Definition mock_inverse : outcome config := mock Inverse (quantity_filter_default S5) (u 1) 200.

(** A test is a list of calls, each with the assertions that follow it. *)
Definition check := config -> result error out -> exchange -> Prop.
Fixpoint holds (l : list check) (c : config) (r : result error out) (e : exchange) : Prop :=
  match l with [] => True | k :: rest => k c r e /\ holds rest c r e end.
Fixpoint script (c : config) (e : exchange) (l : list (op * list check)) : Prop :=
  match l with
  | [] => True
  | (o, ks) :: rest =>
      match step c e o with
      | Done (e', r) => holds ks c r e' /\ script c e' rest
      | Panic _ => False
      end
  end.
Definition test (m : outcome config) (l : list (op * list check)) : Prop :=
  match m with
  | Done c => match init c with Done e => script c e l | Panic _ => False end
  | Panic _ => False
  end.

Definition ok : check := fun _ r _ => is_ok r = true.
Definition nothing_filled : check := fun _ r _ => r = Ok (OutUpdates []).
Definition some_filled (n : nat) : check := fun _ r _ =>
  match r with Ok (OutUpdates l) => length l = n | _ => False end.
Definition updates (l : list order_update) : check := fun _ r _ => r = Ok (OutUpdates l).
Definition error_is (e : error) : check := fun _ r _ => r = Err e.
Definition broke : check := error_is (ERisk NotEnoughAvailableBalance).
Definition pos (p : position) : check := fun _ _ e => ex_pos e = p.
Definition long_of (q p f : Z) : check := pos (Long (inner q p f)).
Definition short_of (q p f : Z) : check := pos (Short (inner q p f)).
Definition flat : check := pos Neutral.
Definition bal (w pm om : Z) : check := fun _ _ e => balances e = {| ub_wallet := w; ub_pm := pm; ub_om := om |}.
Definition outstanding (f : Z) : check := fun _ _ e => position_outstanding_fees (ex_pos e) = f.
Definition upnl (bid ask v : Z) : check := fun c _ e => position_unrealized_pnl c (ex_pos e) bid ask = Done v.
Definition n_orders (n : nat) : check := fun _ _ e => length (ex_active e) = n.
Definition has_order (id : Z) (o : limit_order) : check := fun _ _ e => get_by_id (ex_active e) id = Some o.
Definition paid (f : Z) : check := fun _ _ e => fees_paid e = f.
Definition counters (sub cancelled fully sub_m filled_m buy sell : Z) : check := fun _ _ e =>
  let t := ex_trk e in
  (tk_sub_limit t, tk_cancelled t, tk_fully_filled t, tk_sub_market t, tk_filled_market t,
   tk_buy_volume t, tk_sell_volume t) = (sub, cancelled, fully, sub_m, filled_m, buy, sell).

Definition bba_ (b a ts : Z) : op := OpUpdate (RBba {| bb_bid := u b; bb_ask := u a; bb_ts := ts |}).
Definition trade_ (p q : Z) (sd : side) (ts : Z) : op :=
  OpUpdate (RTrade {| tr_price := u p; tr_qty := q; tr_side := sd; tr_ts := ts |}).
Definition market (sd : side) (q : Z) : op := OpMarket sd q 0.
Definition limit (sd : side) (p q : Z) : op := OpLimit sd p q 0.
Definition taker_fee (q p : Z) : Z := dmul S5 (dmul S5 q p) fee_taker5.
Definition maker_fee (q p : Z) : Z := dmul S5 (dmul S5 q p) fee_maker5.
Definition full (sd : side) (p q id ts exec : Z) : order_update :=
  FullyFilled {| fl_uid := 0; fl_side := sd; fl_price := p; fl_rem := 0; fl_id := id; fl_ts := ts;
                 fl_exec_ts := exec; fl_avg := p; fl_qty := q |}.

(** src/tests/submit_market_buy_order.rs *)
Example test_submit_market_buy_order_reject : test mock_linear
  [ (bba_ 99 100 0, [nothing_filled]);
    (market Buy (u 10), [broke]) ].
Proof. replay. Qed.
Example test_submit_market_buy_order_no_position : test mock_linear
  [ (bba_ 100 101 0, [nothing_filled]);
    (market Buy (u 5), [ok; long_of (u 5) (u 101) (taker_fee (u 5) (u 101)); bal (u 495) (u 505) 0; outstanding (v5 303 3)]) ].
Proof. replay. Qed.
Example test_submit_market_buy_order_with_long_position : test mock_linear
  [ (bba_ 99 100 0, [nothing_filled]);
    (market Buy (u 5), [ok; long_of (u 5) (u 100) (v5 3 1); n_orders 0; bal (u 500) (u 500) 0; outstanding (v5 3 1)]);
    (market Buy (u 4), [ok; bal (u 100) (u 900) 0; long_of (u 9) (u 100) (v5 3 1 + v5 24 2); n_orders 0]) ].
Proof. replay. Qed.
Example test_submit_market_buy_order_with_short_position : test mock_linear
  [ (bba_ 100 101 0, [nothing_filled]);
    (market Sell (u 9), [ok; bal (u 100) (u 900) 0; short_of (u 9) (u 100) (v5 54 2); n_orders 0]);
    (market Buy (u 9), [ok; flat; bal (u 1000 - v5 54 2 - v5 5454 4 - u 9) 0 0]) ].
Proof. replay. Qed.
Example test_submit_market_buy_order_turnaround_short : test mock_linear
  [ (bba_ 99 100 0, [nothing_filled]);
    (market Sell (u 9), [ok; short_of (u 9) (u 99) (taker_fee (u 9) (u 99)); bal (u 109) (u 891) 0; outstanding (v5 5346 4)]);
    (market Buy (u 18), [ok; long_of (u 9) (u 100) 0; bal (u 100 - v5 5346 4 - v5 108 2 - u 9) (u 900) 0]) ].
Proof. replay. Qed.

(** src/tests/submit_market_sell_order.rs *)
Example test_submit_market_sell_order_reject : test mock_linear
  [ (bba_ 100 101 0, [nothing_filled]);
    (market Sell (u 10), [broke]) ].
Proof. replay. Qed.
Example test_submit_market_sell_order : test mock_linear
  [ (bba_ 100 101 0, [nothing_filled]);
    (market Sell (u 5), [ok; short_of (u 5) (u 100) (taker_fee (u 5) (u 100)); bal (u 500) (u 500) 0; outstanding (v5 3 1)]) ].
Proof. replay. Qed.
Example test_submit_market_sell_order_with_short_position : test mock_linear
  [ (bba_ 100 101 0, [nothing_filled]);
    (market Sell (u 5), [ok; bal (u 500) (u 500) 0; short_of (u 5) (u 100) (v5 3 1); n_orders 0]);
    (market Sell (u 4), [ok; bal (u 100) (u 900) 0; short_of (u 9) (u 100) (v5 3 1 + v5 24 2); n_orders 0]) ].
Proof. replay. Qed.
Example test_submit_market_sell_order_with_long_position : test mock_linear
  [ (bba_ 99 100 0, [nothing_filled]);
    (market Buy (u 9), [ok]);
    (market Sell (u 9), [ok; flat; bal (u 1000 - v5 54 2 - v5 5346 4 - u 9) 0 0]) ].
Proof. replay. Qed.
Example test_submit_market_sell_order_turnaround_long : test mock_linear
  [ (bba_ 99 100 0, [nothing_filled]);
    (market Buy (u 9), [ok; bal (u 100) (u 900) 0; long_of (u 9) (u 100) (taker_fee (u 9) (u 100)); n_orders 0]);
    (market Sell (u 18), [ok; bal (u 100 - taker_fee (u 9) (u 100) - taker_fee (u 18) (u 99)) (u 891) 0;
                          short_of (u 9) (u 99) 0; n_orders 0]) ].
Proof. replay. Qed.

(** src/tests/cancel_limit_order.rs *)
Example test_cancel_limit_order : test mock_linear
  [ (bba_ 100 101 0, [ok]);
    (limit Buy (u 100) (u 1), [ok; n_orders 1; has_order 0 (pending Buy (u 100) (u 1) 0 0); bal (u 900) 0 (u 100); outstanding 0]);
    (OpCancel (ByOrderId 0), [ok; n_orders 0; bal (u 1000) 0 0]) ].
Proof. replay. Qed.

(** src/tests/partial_order_fill.rs *)
Definition partly (o : limit_order) (q p : Z) : order_update :=
  PartiallyFilled {| lo_uid := lo_uid o; lo_side := lo_side o; lo_price := lo_price o; lo_rem := lo_rem o - q;
                     lo_id := lo_id o; lo_ts := lo_ts o; lo_filled := FilledQ q p |}.
Example test_partial_limit_order_fill :
  every (fun x : Z * side * Z => let '(p, sd, tp) := x in test mock_linear
    [ (bba_ 100 101 1, [nothing_filled]);
      (limit sd (u p) (u 2), [ok; n_orders 1]);
      (trade_ tp (u 1) (side_inverted sd) 1, [updates [partly (pending sd (u p) (u 2) 0 1) (u 1) (u p)]]) ])
    [(100, Buy, 99); (101, Sell, 102)].
Proof. replay. Qed.

(** src/tests/amend.rs *)
Definition leaves (id q : Z) : check := fun _ _ e =>
  match get_by_id (ex_active e) id with
  | Some o => lo_price o = u 100 /\ lo_side o = Buy /\ lo_rem o = q
  | None => False
  end.
Example test_amend_limit_order_qty :
  every (fun q => test mock_linear
    [ (bba_ 100 101 1, [nothing_filled]);
      (limit Buy (u 100) (u 5), [ok; n_orders 1]);
      (OpAmend 0 Buy (u 100) (u q) 0, [ok; leaves 1 (u q)]) ]) [1; 3; 5; 10].
Proof. replay. Qed.
Example test_amend_limit_order_qty_with_partial_fill_leading_to_cancel :
  every (fun q => test mock_linear
    [ (bba_ 100 101 1, [nothing_filled]);
      (limit Buy (u 100) (u 5), [ok; n_orders 1]);
      (trade_ 99 (u 3) Sell 0, [ok; leaves 0 (u 2)]);
      (OpAmend 0 Buy (u 100) (u q) 0, [error_is EAmendQtyAlreadyFilled]) ]) [1; 2; 3].
Proof. replay. Qed.
Example test_amend_limit_order_qty_with_partial_fill :
  every (fun q => test mock_linear
    [ (bba_ 100 101 1, [nothing_filled]);
      (limit Buy (u 100) (u 5), [ok; n_orders 1]);
      (trade_ 99 (u 3) Sell 2, [ok; leaves 0 (u 2)]);
      (OpAmend 0 Buy (u 100) (u q) 0, [ok; leaves 1 (u 2 + (u q - u 5))]) ]) [4; 5; 6].
Proof. replay. Qed.

(** src/tests/submit_limit_buy_order.rs *)
Example test_submit_limit_buy_order_no_position : test mock_linear
  [ (bba_ 99 100 0, [nothing_filled]);
    (limit Buy (u 98) (u 5), [ok; flat; bal (u 510) 0 (u 490)]);
    (trade_ 97 (u 5) Sell 0, [updates [full Buy (u 98) (u 5) 0 0 0]]);
    (bba_ 96 99 1, [nothing_filled; long_of (u 5) (u 98) (maker_fee (u 5) (u 98)); bal (u 510) (u 490) 0; outstanding (v5 98 3)]);
    (limit Sell (u 98) (u 5), [ok]);
    (bba_ 96 97 2, [nothing_filled]);
    (trade_ 99 (u 5) Buy 3, [updates [full Sell (u 98) (u 5) 1 1 3]; flat]) ].
Proof. replay. Qed.
Example test_submit_limit_buy_order_no_position_max : test mock_linear
  [ (bba_ 100 101 0, [nothing_filled]);
    (limit Buy (u 100) (u 5), [ok]); (limit Buy (u 100) (u 4), [ok]); (limit Buy (u 100) (u 1), [ok]);
    (limit Sell (u 101) (u 5), [ok]); (limit Sell (u 101) (u 4), [ok]);
    (limit Sell (u 101) (u 1), [broke]) ].
Proof. replay. Qed.
Example test_submit_limit_buy_order_with_long : test mock_linear
  [ (bba_ 99 100 0, [nothing_filled]);
    (market Buy (u 9), [ok; long_of (u 9) (u 100) (taker_fee (u 9) (u 100)); bal (u 100) (u 900) 0; outstanding (v5 54 2)]);
    (bba_ 100 101 1, [nothing_filled]);
    (limit Buy (u 100) (v5 11 1), [broke]);
    (limit Sell (u 101) (u 9), [ok]);
    (trade_ 102 (u 9) Buy 2, [updates [full Sell (u 101) (u 9) 2 1 2]; flat]) ].
Proof. replay. Qed.
Example test_submit_limit_buy_order_with_short : test mock_linear
  [ (bba_ 100 101 0, [nothing_filled]);
    (market Sell (u 9), [ok; short_of (u 9) (u 100) (taker_fee (u 9) (u 100)); bal (u 100) (u 900) 0; outstanding (v5 54 2)]);
    (limit Sell (u 101) (u 1), [broke]);
    (limit Buy (u 100) (u 9), [ok]);
    (trade_ 99 (u 9) Sell 1, [updates [full Buy (u 100) (u 9) 2 0 1]; flat]) ].
Proof. replay. Qed.
Example test_submit_limit_buy_order_above_ask : test mock_linear
  [ (bba_ 99 100 0, [nothing_filled]);
    (limit Buy (u 100) (u 9), [error_is (EOrder GoodTillCrossingRejectedOrder)]) ].
Proof. replay. Qed.

(** src/tests/submit_limit_sell_order.rs *)
Example test_submit_limit_sell_order_no_position : test mock_linear
  [ (bba_ 99 100 0, [nothing_filled]);
    (limit Sell (u 100) (u 9), [ok; flat]);
    (trade_ 101 (u 9) Buy 1, [updates [full Sell (u 100) (u 9) 0 0 1]]);
    (bba_ 101 102 2, [ok; short_of (u 9) (u 100) (maker_fee (u 9) (u 100)); bal (u 100) (u 900) 0; outstanding (v5 18 2)]);
    (limit Buy (u 100) (u 9), [ok]);
    (trade_ 99 (u 9) Sell 3, [updates [full Buy (u 100) (u 9) 1 2 3]; flat;
       bal (u 1000 - maker_fee (u 9) (u 100) - maker_fee (u 9) (u 100)) 0 0]) ].
Proof. replay. Qed.
Example test_submit_limit_sell_order_no_position_max : test mock_linear
  [ (bba_ 99 100 0, [nothing_filled]);
    (limit Sell (u 100) (u 5), [ok]); (limit Sell (u 100) (u 4), [ok]); (limit Sell (u 100) (u 1), [ok]);
    (limit Buy (u 99) (u 5), [ok]); (limit Buy (u 99) (u 4), [ok]);
    (limit Buy (u 99) (u 2), [broke]) ].
Proof. replay. Qed.
Example test_submit_limit_sell_order_below_bid : test mock_linear
  [ (bba_ 99 100 0, [nothing_filled]);
    (limit Sell (u 99) (u 9), [error_is (EOrder GoodTillCrossingRejectedOrder)]) ].
Proof. replay. Qed.

(** tests/linear_futures.rs, [lin_long_market_win_full]. *)
Example test_lin_long_market_win_full : test mock_linear_tracked
  [ (bba_ 99 100 0, [ok; counters 0 0 0 0 0 0 0; paid 0]);
    (market Buy (u 5), [ok]);
    (bba_ 100 101 1, [nothing_filled; counters 0 0 0 1 1 (u 500) 0;
       long_of (u 5) (u 100) (taker_fee (u 5) (u 100)); upnl (u 100) (u 101) 0; bal (u 500) (u 500) 0]);
    (bba_ 200 201 2, [nothing_filled; upnl (u 200) (u 201) (u 500)]);
    (market Sell (u 5), [ok; flat; upnl (u 200) (u 201) 0; bal (v5 14991 1) 0 0;
       counters 0 0 0 2 2 (u 500) (u 1000); paid (v5 9 1)]) ].
Proof. replay. Qed.

(** tests/limit_orders_only.rs *)
Example test_limit_orders_only : test mock_linear_tracked
  [ (bba_ 100 101 0, [some_filled 0]);
    (limit Buy (u 100) (v5 99 1), [ok; bal (u 10) 0 (u 990); outstanding 0; counters 1 0 0 0 0 0 0; paid 0]);
    (trade_ 99 (u 10) Sell 1, [some_filled 1]);
    (bba_ 98 99 2, [nothing_filled; long_of (v5 99 1) (u 100) (maker_fee (v5 99 1) (u 100));
       upnl (u 98) (u 99) (v5 (-198) 1); bal (u 10) (u 990) 0; outstanding (maker_fee (v5 99 1) (u 100));
       counters 1 0 1 0 0 (u 990) 0]);
    (limit Sell (u 105) (v5 99 1), [ok]);
    (trade_ 106 (u 10) Buy 3, [some_filled 1;
       bal (v5 10495 1 - maker_fee (v5 99 1) (u 100) - maker_fee (v5 99 1) (u 105)) 0 0]);
    (bba_ 106 107 4, [nothing_filled; flat; bal (v5 10495 1 - v5 198 3 - v5 2079 4) 0 0;
       counters 2 0 2 0 0 (u 990) (v5 10395 1); paid (v5 4059 4)]) ].
Proof. replay. Qed.
Example test_limit_orders_2 : test mock_linear
  [ (bba_ 100 101 0, [nothing_filled]);
    (limit Sell (u 101) (v5 75 2), [ok]);
    (limit Buy (u 100) (v5 5 1), [ok]);
    (trade_ 98 (u 2) Sell 1, [some_filled 1]);
    (bba_ 98 99 2, [ok]) ].
Proof. replay. Qed.

(** tests/inverse_futures.rs *)
Definition inv (q p : Z) : Z := Z.quot (q * S5) p.
Definition inv_fee (q p : Z) : Z := dmul S5 (inv q p) fee_taker5.
Definition inv_fee_quote (q p : Z) : Z := inv (dmul S5 q fee_taker5) p.
Definition inv_maker (q p : Z) : Z := dmul S5 (inv q p) fee_maker5.
Definition cost (v : Z) : check := fun c _ e => position_total_cost c (ex_pos e) = Done v.
Definition size_entry (q p : Z) : check := fun _ _ e =>
  position_quantity (ex_pos e) = q /\ position_entry_price (ex_pos e) = p.

Example test_inv_long_market_win_full : test mock_inverse
  [ (bba_ 999 1000 0, [ok]);
    (market Buy (dmul S5 (dmul S5 (u 1) (v5 8 1)) (u 1000)), [ok]);
    (bba_ 1000 1001 1, [nothing_filled; long_of (u 800) (u 1000) (inv_fee (u 800) (u 1000)); upnl (u 1000) (u 1001) 0;
       bal (v5 2 1) (v5 8 1) 0; outstanding (inv_fee_quote (u 800) (u 1000))]);
    (bba_ 2000 2001 1, [nothing_filled; upnl (u 2000) (u 2001) (v5 4 1)]);
    (market Sell (u 800), [ok; flat; upnl (u 2000) (u 2001) 0;
       bal (v5 14 1 - inv_fee_quote (u 800) (u 1000) - inv_fee_quote (u 800) (u 2000)) 0 0]) ].
Proof. replay. Qed.
Example test_inv_long_market_loss_full : test mock_inverse
  [ (bba_ 999 1000 0, [nothing_filled]);
    (market Buy (u 800), [ok; long_of (u 800) (u 1000) (inv_fee (u 800) (u 1000)); upnl (u 1000) (u 1000) 0;
       bal (v5 2 1) (v5 8 1) 0; outstanding (inv_fee (u 800) (u 1000))]);
    (bba_ 800 801 2, [nothing_filled; upnl (u 800) (u 801) (v5 (-2) 1)]);
    (market Sell (u 800), [ok; flat; upnl (u 800) (u 801) 0;
       bal (v5 8 1 - (inv_fee_quote (u 800) (u 1000) + inv_fee_quote (u 800) (u 800))) 0 0]) ].
Proof. replay. Qed.
Example test_inv_short_market_win_full : test mock_inverse
  [ (bba_ 1000 1001 0, [nothing_filled]);
    (market Sell (u 800), [ok; short_of (u 800) (u 1000) (inv_fee (u 800) (u 1000)); bal (v5 2 1) (v5 8 1) 0;
       outstanding (inv_fee (u 800) (u 1000))]);
    (bba_ 799 800 1, [nothing_filled; upnl (u 799) (u 800) (v5 2 1)]);
    (market Buy (u 800), [ok]);
    (bba_ 799 800 2, [nothing_filled; flat; upnl (u 799) (u 800) 0;
       bal (v5 12 1 - (inv_fee_quote (u 800) (u 1000) + inv_fee_quote (u 800) (u 800))) 0 0]) ].
Proof. replay. Qed.
Example test_inv_short_market_loss_full : test mock_inverse
  [ (bba_ 1000 1001 0, [nothing_filled]);
    (market Sell (dmul S5 (v5 4 1) (u 1000)), [ok]);
    (bba_ 999 1000 1, [nothing_filled; short_of (u 400) (u 1000) (inv_fee (u 400) (u 1000)); upnl (u 999) (u 1000) 0;
       bal (v5 6 1) (v5 4 1) 0; outstanding (inv_fee (u 400) (u 1000))]);
    (bba_ 1999 2000 2, [error_is (ERisk Liquidate); flat; bal (v5 79964 5) 0 0]) ].
Proof. replay. Qed.
Example test_inv_long_market_win_partial : test mock_inverse
  [ (bba_ 999 1000 0, [nothing_filled]);
    (market Buy (dmul S5 (v5 8 1) (u 1000)), [ok]);
    (bba_ 1000 1001 1, [nothing_filled; long_of (u 800) (u 1000) (inv_fee (u 800) (u 1000)); upnl (u 1000) (u 1001) 0;
       bal (v5 2 1) (v5 8 1) 0; outstanding (inv_fee (u 800) (u 1000))]);
    (bba_ 2000 2001 1, [nothing_filled; upnl (u 2000) (u 2001) (v5 4 1)]);
    (market Sell (u 400), [ok]);
    (bba_ 2000 2001 2, [nothing_filled; size_entry (u 400) (u 1000); cost (v5 4 1); upnl (u 2000) (u 2001) (v5 2 1);
       bal (v5 8 1 - inv_fee (u 800) (u 1000) - inv_fee (u 400) (u 2000)) (v5 4 1) 0]) ].
Proof. replay. Qed.
Example test_inv_long_market_loss_partial : test mock_inverse
  [ (bba_ 999 1000 0, [nothing_filled]);
    (market Buy (u 800), [ok]);
    (bba_ 999 1000 1, [nothing_filled; long_of (u 800) (u 1000) (inv_fee (u 800) (u 1000))]);
    (bba_ 800 801 2, [nothing_filled; upnl (u 800) (u 801) (v5 (-2) 1)]);
    (market Sell (u 400), [ok]);
    (bba_ 800 801 3, [nothing_filled; size_entry (u 400) (u 1000); cost (v5 4 1); outstanding 0; upnl (u 800) (u 801) (v5 (-1) 1);
       bal (v5 5 1 - inv_fee (u 800) (u 1000) - inv_fee (u 400) (u 800)) (v5 4 1) 0]) ].
Proof. replay. Qed.
Example test_inv_short_market_win_partial : test mock_inverse
  [ (bba_ 1000 1001 0, [ok]);
    (market Sell (u 800), [ok]);
    (bba_ 999 1000 1, [nothing_filled; short_of (u 800) (u 1000) (inv_fee (u 800) (u 1000)); upnl (u 999) (u 1000) 0;
       bal (v5 2 1) (v5 8 1) 0; outstanding (inv_fee (u 800) (u 1000))]);
    (bba_ 799 800 2, [nothing_filled; upnl (u 799) (u 800) (v5 2 1)]);
    (market Buy (u 400), [ok]);
    (bba_ 799 800 3, [nothing_filled; short_of (u 400) (u 1000) 0; upnl (u 799) (u 800) (v5 1 1);
       bal (v5 7 1 - inv_fee (u 800) (u 1000) - inv_fee (u 400) (u 800)) (v5 4 1) 0; outstanding 0]) ].
Proof. replay. Qed.
Example test_inv_short_market_loss_partial : test mock_inverse
  [ (bba_ 1000 1001 0, [nothing_filled]);
    (market Sell (dmul S5 (v5 8 1) (u 1000)), [ok]);
    (bba_ 999 1000 1, [nothing_filled; short_of (u 800) (u 1000) (inv_fee_quote (u 800) (u 1000)); upnl (u 999) (u 1000) 0;
       bal (v5 2 1) (v5 8 1) 0; outstanding (dmul S5 (v5 8 1) fee_taker5)]);
    (bba_ 1999 2000 2, [error_is (ERisk Liquidate); flat; bal (v5 59928 5) 0 0]) ].
Proof. replay. Qed.
Example test_inv_test_market_roundtrip : test mock_inverse
  [ (bba_ 999 1000 0, [nothing_filled]);
    (market Buy (u 900), [ok]);
    (bba_ 1000 1001 1, [nothing_filled]);
    (market Sell (u 900), [ok; flat; upnl (u 1000) (u 1001) 0;
       bal (u 1 - dmul S5 (u 2) (inv_fee (u 900) (u 1000))) 0 0]) ].
Proof. replay. Qed.
Example test_inv_execute_limit : test mock_inverse
  [ (bba_ 1000 1001 0, [ok]);
    (limit Buy (u 900) (u 450), [ok; n_orders 1; bal (v5 5 1) 0 (v5 5 1)]);
    (trade_ 899 (u 450) Sell 1, [some_filled 1]);
    (bba_ 750 751 2, [nothing_filled; n_orders 0; long_of (u 450) (u 900) (inv_maker (u 450) (u 900));
       bal (v5 5 1) (v5 5 1) 0; outstanding (inv_maker (u 450) (u 900))]);
    (limit Sell (u 1000) (u 450), [ok; n_orders 1]);
    (trade_ 1001 (u 450) Buy 3, [some_filled 1]);
    (bba_ 1199 1200 4, [nothing_filled; n_orders 0; flat;
       bal (v5 105 2 - inv_maker (u 450) (u 900) - inv_maker (u 450) (u 1000)) 0 0]);
    (limit Sell (u 1200) (u 600), [ok; n_orders 1]);
    (trade_ 1201 (u 600) Buy 5, [some_filled 1]);
    (bba_ 1201 1202 2, [nothing_filled; short_of (u 600) (u 1200) (inv_maker (u 600) (u 1200));
       bal (v5 105 2 - inv_maker (u 450) (u 900) - inv_maker (u 450) (u 1000) - inv (u 600) (u 1200)) (v5 5 1) 0]) ].
Proof. replay. Qed.
