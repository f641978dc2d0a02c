(** Property C54. *)
From Coq Require Import String.
From Verif Require Import Base Types MarketUpdate Exchange Data Spec SpecConfig SpecMarket SpecData Scenario ScenarioPanic DataProof.

(** C54: a file is loaded exactly when its first columns are timestamp, price and size and no size is zero. *)
Theorem C54_load_exact : forall head rows,
  (good_header head -> Forall (fun r => cr_size r <> 0) rows -> exists ts, load_trades head rows = Done ts) /\
  (good_header head -> ~ Forall (fun r => cr_size r <> 0) rows -> load_trades head rows = Panic PCsvSize) /\
  (~ good_header head -> load_trades head rows = Panic PCsvHeader).
Proof. exact load_exact. Qed.
Print Assumptions C54_load_exact.

(** C54: each record becomes one trade, in order, with its price and time and the side given by the sign of its size;
    the quantity keeps that sign. *)
Theorem C54_loaded_rows : forall head rows ts, load_trades head rows = Done ts ->
  Forall2 (fun r t => tr_price t = cr_price r /\ tr_ts t = 1000000 * cr_ms r /\ tr_qty t = cr_size r /\
                      (tr_side t = Buy <-> 0 < cr_size r) /\ (tr_side t = Sell <-> cr_size r < 0)) rows ts.
Proof. exact loaded_rows. Qed.
Print Assumptions C54_loaded_rows.

(** C54, refuted for sells: only bought records become the trade they stand for. *)
Theorem C54_sells_refuted : forall head rows ts, load_trades head rows = Done ts ->
  Forall2 (fun r t => meant r t <-> 0 < cr_size r) rows ts.
Proof. exact loaded_meant. Qed.
Print Assumptions C54_sells_refuted.

(** C54, refuted: a loaded sell that crosses a resting buy makes the exchange panic in every build, unless the position
    is liquidated first. *)
Theorem C54_sell_panics_refuted : forall head rows ts c e t o,
  load_trades head rows = Done ts -> In t ts -> tr_side t = Sell ->
  valid_config c -> reachable c e -> ~ due_after c e (RTrade t) ->
  In o (ex_active e) -> lo_side o = Buy -> tr_price t < lo_price o ->
  exists w, step c e (OpUpdate (RTrade t)) = Panic w.
Proof. exact loaded_sell_panics. Qed.
Print Assumptions C54_sell_panics_refuted.

(** C54, refuted: in debug builds no smart candle can be built from loaded trades that contain a sell. *)
Theorem C54_candle_refuted : forall head rows ts b f,
  load_trades head rows = Done ts -> (exists t, In t ts /\ tr_side t = Sell) -> exists w, smart_candle_new true ts b f = Panic w.
Proof. exact loaded_candle_panics. Qed.
Print Assumptions C54_candle_refuted.

(** C54: for trades with positive quantity the aggregation library sees the quantity with the sign of the side, and
    recovers the side from it. *)
Theorem C54_size : forall t, 0 < tr_qty t ->
  Z.abs (taker_size t) = tr_qty t /\ side_from_taker_quantity (taker_size t) = Done (tr_side t).
Proof. exact size_sign. Qed.
Print Assumptions C54_size.

(** C54: the sizes add up to the bought minus the sold volume. *)
Theorem C54_net_volume : forall l, sumZ (map (fun t => ag_size (into_agg t)) l) = volume Buy l - volume Sell l.
Proof. exact net_volume. Qed.
Print Assumptions C54_net_volume.

(** C54, refuted for loaded trades: the sign is applied twice and every loaded trade looks like a purchase. *)
Theorem C54_loaded_sizes_refuted : forall head rows ts, load_trades head rows = Done ts ->
  map taker_size ts = map (fun r => Z.abs (cr_size r)) rows.
Proof. exact loaded_sizes. Qed.
Print Assumptions C54_loaded_sizes_refuted.

(** A purchase and a sale of 2 at 90: both look like purchases, and the sale stops an exchange with a resting buy at 95. *)
Example C54_case :
  match load_trades ["timestamp"; "price"; "size"]%string two_rows with
  | Done (buy :: sell :: nil) =>
      tr_side sell = Sell /\ tr_qty sell = d (-2) /\ tr_ts sell = 6000000 /\ taker_size buy = d 2 /\ taker_size sell = d 2 /\
      ends_in (L false) [quote 100 101 1; OpLimit Buy (d 95) (d 1) 1] (OpUpdate (RTrade sell)) = Some PFillNonPos /\
      ends_in (L true) [quote 100 101 1; OpLimit Buy (d 95) (d 1) 1] (OpUpdate (RTrade sell)) = Some PTradeQtyDebug /\
      ends_in (L true) [quote 100 101 1; OpLimit Buy (d 95) (d 1) 1] (OpUpdate (RTrade buy)) = None
  | _ => False
  end.
Proof. vm_compute. repeat split. Qed.
