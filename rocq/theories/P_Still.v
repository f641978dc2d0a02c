(** Property C83: nothing can be won while the market stands still. *)
From Verif Require Import Base Types Position MarketUpdate Exchange Spec SpecConfig SpecMarket SpecFlow Scenario ScenarioPanic SpecStill StillProof ScenarioStill StillFacts.

(** An account without a position that trades whole contracts between two market updates: whatever it does, positions are entered at the
    quote, and the account never has more than before, not even before fees or counting the profit of the open position. *)
Theorem C83_no_profit : forall c e ops e' outs, valid_config c -> reachable c e -> ex_pos e = Neutral -> ms_bid (ex_ms e) <= ms_ask (ex_ms e) ->
  own_calls c ops -> run c e ops = Done (e', outs) ->
  let bid := ms_bid (ex_ms e) in let ask := ms_ask (ex_ms e) in
  at_quote e e' /\ gross e' <= gross e /\ (0 < bid -> gross e' + open_profit c (ex_pos e') bid ask <= gross e) /\
  (bid = ask -> gross e' = gross e) /\ wealth_of e' <= wealth_of e.
Proof. exact still_no_profit. Qed.
Print Assumptions C83_no_profit.

(** Two longs, a flip, and part of the short bought back, next to a resting order: 4 times the spread of 1 is lost. *)
Example C83_still_market : match play (L true) [quote 100 101 1] with
  | Done (e, _) => ex_pos e = Neutral /\ own_calls (L true) still_ops /\
      match run (L true) e still_ops with
      | Done (e', _) => position_quantity (ex_pos e') = - d 1 /\ gross e' = gross e - d 4 /\ open_profit (L true) (ex_pos e') (d 100) (d 101) = - d 1
      | Panic _ => False end
  | Panic _ => False end.
Proof.
  vm_compute. split; [reflexivity|]. split; [|repeat split]. intros o O.
  repeat (destruct O as [<-|O]; [first [exact I | exists 2; reflexivity | exists 1; reflexivity | exists 5; reflexivity]|]). destruct O.
Qed.

(** With fractions of contracts rounding pays: four purchases of 0.4 at 0.7 count as 1.6 at 0.5.  Selling them at the unchanged bid of 0.6
    wins 0.1, as often as one likes, in either build. *)
Theorem C83_fractions_refuted : forall dbg n, exists e outs, valid_config (T dbg) /\ history (T dbg) (rounds n) e outs /\
  ms_bid (ex_ms e) = 6 /\ ms_ask (ex_ms e) = 7 /\ ex_pos e = Neutral /\ ex_active e = [] /\ wallet_of e = c_start (T dbg) + Z.of_nat n.
Proof. exact pump_forever. Qed.
Print Assumptions C83_fractions_refuted.

(** The fees of an order in pieces are at most those of the order, and less by at most two units per further piece. *)
Theorem C83_fee_pieces : forall k s p r l, 0 < s -> 0 < p -> 0 <= r <= s -> (forall q, In q l -> 0 <= q) -> l <> [] ->
  total (map (cost k s p r) l) <= cost k s p r (total l) <= total (map (cost k s p r) l) + 2 * (Z.of_nat (length l) - 1).
Proof. exact costs_pieces. Qed.
Print Assumptions C83_fee_pieces.

Example C83_two_units_less : total (map (cost Linear 10 1 4) [21; 29]) = 0 /\ cost Linear 10 1 4 (total [21; 29]) = 2.
Proof. vm_compute. auto. Qed.

(** An order is free exactly when its value times the rate is below one unit. *)
Theorem C83_free : forall k s p r q, 0 < s -> 0 < p -> 0 <= r -> 0 <= q -> (cost k s p r q = 0 <-> value k s q p * r < s).
Proof. exact cost_free. Qed.
Print Assumptions C83_free.

(** Selling one contract in ten pieces avoids its fee. *)
Theorem C83_fees_avoided : forall dbg, exists e1 o1 e2 o2, valid_config (one_cfg dbg) /\ history (one_cfg dbg) in_one e1 o1 /\ history (one_cfg dbg) in_ten e2 o2 /\
  ex_pos e1 = Neutral /\ ex_pos e2 = Neutral /\ gross e1 = gross e2 /\ fees_paid e1 = 18 /\ fees_paid e2 = 12.
Proof. exact fees_avoided. Qed.
Print Assumptions C83_fees_avoided.
