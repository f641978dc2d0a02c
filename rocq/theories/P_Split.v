(** Property C51. *)
From Coq Require Import Permutation.
From Verif Require Import Base Types OrderBook Position MarketUpdate Exchange Spec SpecBook SpecConfig SpecMarket SpecEntry SpecSplit Scenario
  ScenarioPanic SplitProof.

(** C51: trades delivered one by one leave of each order what exceeds the crossing volume, and the position changes
    by what was taken. *)
Theorem C51_trades : forall c l e e' outs,
  valid_config c -> reachable c e -> (forall t, In t l -> 0 < tr_qty t) -> run c e (trade_ops l) = Done (e', outs) -> all_accepted outs ->
  Permutation (map stub (ex_active e')) (leftover l (ex_active e)) /\
  position_quantity (ex_pos e') = position_quantity (ex_pos e) + moved l (ex_active e).
Proof. exact trades_split. Qed.
Print Assumptions C51_trades.

(** C51: the order in which the trades arrive does not matter. *)
Theorem C51_reordered : forall c e l l' ea outsa eb outsb,
  valid_config c -> reachable c e -> (forall t, In t l -> 0 < tr_qty t) -> Permutation l l' ->
  run c e (trade_ops l) = Done (ea, outsa) -> all_accepted outsa ->
  run c e (trade_ops l') = Done (eb, outsb) -> all_accepted outsb ->
  Permutation (map stub (ex_active ea)) (map stub (ex_active eb)) /\ position_quantity (ex_pos ea) = position_quantity (ex_pos eb).
Proof. exact trades_reordered. Qed.
Print Assumptions C51_reordered.

(** C51: a trade may be reported in two parts. *)
Theorem C51_divided : forall c e l1 l2 t t1 t2 ea outsa eb outsb,
  valid_config c -> reachable c e ->
  tr_side t1 = tr_side t -> tr_side t2 = tr_side t -> tr_price t1 = tr_price t -> tr_price t2 = tr_price t ->
  tr_qty t1 + tr_qty t2 = tr_qty t -> (forall u, In u (l1 ++ t1 :: t2 :: l2) -> 0 < tr_qty u) ->
  run c e (trade_ops (l1 ++ t1 :: t2 :: l2)) = Done (ea, outsa) -> all_accepted outsa ->
  run c e (trade_ops (l1 ++ t :: l2)) = Done (eb, outsb) -> all_accepted outsb ->
  Permutation (map stub (ex_active ea)) (map stub (ex_active eb)) /\ position_quantity (ex_pos ea) = position_quantity (ex_pos eb).
Proof. exact trades_divided. Qed.
Print Assumptions C51_divided.

(** C51: a candle built from the trades has the same effect. *)
Theorem C51_candle : forall c e l l' b f ea us eb outs,
  valid_config c -> reachable c e -> (forall t, In t l -> 0 < tr_qty t) -> Permutation l l' ->
  step c e (OpUpdate (RSmart l b f)) = Done (ea, Ok (OutUpdates us)) ->
  run c e (trade_ops l') = Done (eb, outs) -> all_accepted outs ->
  Permutation (map stub (ex_active ea)) (map stub (ex_active eb)) /\ position_quantity (ex_pos ea) = position_quantity (ex_pos eb).
Proof. exact candle_as_trades. Qed.
Print Assumptions C51_candle.

(** Two buys of 1; trades of 0.4 and 0.9, or one candle: the buy at 95 is gone, the buy at 90 untouched. *)
Example C51_case :
  let t q := {| tr_price := d 94; tr_qty := q; tr_side := Sell; tr_ts := 2 |} in
  match play (L true) [quote 100 101 1; OpLimit Buy (d 95) (d 1) 1; OpLimit Buy (d 90) (d 1) 2] with
  | Done (e, _) =>
      match run (L true) e (trade_ops [t 4000; t 9000]), step (L true) e (OpUpdate (RSmart [t 9000; t 4000] {| bb_bid := d 93; bb_ask := d 94; bb_ts := 2 |} (ct_pf (c_spec (L true))))) with
      | Done (ea, [Ok (OutUpdates [_]); Ok (OutUpdates [_])]), Done (eb, Ok (OutUpdates [_])) =>
          map stub (ex_active ea) = [(1, Buy, d 90, d 1)] /\ map stub (ex_active eb) = [(1, Buy, d 90, d 1)] /\
          position_quantity (ex_pos ea) = d 1 /\ position_quantity (ex_pos eb) = d 1
      | _, _ => False
      end
  | Panic _ => False
  end.
Proof. vm_compute. repeat split. Qed.
