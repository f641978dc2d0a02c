(** Property C82: leaving the market. *)
From Coq Require Import Permutation.
From Verif Require Import Base Types Position MarketUpdate Exchange Spec SpecConfig SpecRules SpecMarket SpecEntry SpecFlow SpecPanic Scenario ScenarioPanic SpecWind WindProof WindFacts.

(** Cancelling all resting orders in any order, if no call panics: every order is handed back, none is left, and all that was reserved is
    in the wallet again; nothing else moves. *)
Theorem C82_cancel_all : forall c e ids e' outs, valid_config c -> reachable c e -> everything e ids -> run c e (cancels ids) = Done (e', outs) ->
  exists os, handed_back ids os outs /\ Permutation (ex_active e) os /\ ex_active e' = [] /\ order_margin_of e' = 0 /\
    reserved e e' (- order_margin_of e).
Proof. exact cancel_all_money. Qed.
Print Assumptions C82_cancel_all.

(** The order in which they are cancelled makes no difference to the state reached. *)
Theorem C82_any_order : forall c e ids ids' e1 o1 e2 o2, valid_config c -> reachable c e -> everything e ids -> everything e ids' ->
  run c e (cancels ids) = Done (e1, o1) -> run c e (cancels ids') = Done (e2, o2) -> e1 = e2.
Proof. exact cancel_any_order. Qed.
Print Assumptions C82_any_order.

(** Cancelling from the end of the book to its start returns exactly when the reserved margin is what the orders need; otherwise there is
    an order, and every cancellation panics. *)
Theorem C82_returns : forall c e, valid_config c -> reachable c e ->
  ((exists e' outs, run c e (cancels (last_first e)) = Done (e', outs)) <-> in_sync c e) /\
  (~ in_sync c e -> ex_active e <> [] /\ forall b, step c e (OpCancel b) = Panic PCancelMargin).
Proof. exact cancel_returns. Qed.
Print Assumptions C82_returns.

(** A market order that closes the position is filled exactly when its size is allowed, there is a quote, the margin to release is positive
    and, in debug builds, is all that was posted.  Funds do not matter. *)
Theorem C82_close : forall c e uid, valid_config c -> reachable c e -> ex_pos e <> Neutral ->
  ((exists e' f, run c e (closing e uid) = Done (e', [Ok (OutMarket f)])) <-> closable c e).
Proof. exact close_exact. Qed.
Print Assumptions C82_close.

(** Cancelling from the end of the book and then closing leaves the market: no panic, no refusal, no order, no position, and the account
    gained what the position was worth, fees aside.  In debug builds all the money is then in the wallet. *)
Theorem C82_wind_down : forall c e uid, valid_config c -> reachable c e -> in_sync c e -> closable c e ->
  exists e' os fs, run c e (cancels (last_first e) ++ closing e uid) = Done (e', map (fun o => Ok (OutLimit o)) os ++ map (fun f => Ok (OutMarket f)) fs) /\
    map lo_id os = last_first e /\ Permutation (ex_active e) os /\ length fs = length (closing e uid) /\
    left_market e' /\ ex_ms e' = ex_ms e /\
    wealth_of e' + fees_paid e' = wealth_of e + fees_paid e + open_profit c (ex_pos e) (ms_bid (ex_ms e)) (ms_ask (ex_ms e)) /\
    position_margin_of e' = position_margin_of e - margin_at c (Z.abs (position_quantity (ex_pos e))) (position_entry_price (ex_pos e)) /\
    (c_dbg c = true -> wallet_of e' = wealth_of e').
Proof. exact wind_down. Qed.
Print Assumptions C82_wind_down.

(** An account that has left the market stays as it is, whatever the market does. *)
Theorem C82_idle : forall c ops e e' outs, valid_config c -> reachable c e -> left_market e -> only_updates ops -> run c e ops = Done (e', outs) ->
  left_market e' /\ same_money e e' /\ ex_next_id e' = ex_next_id e /\ forall r, In r outs -> r = Ok (OutUpdates []).
Proof. exact idle. Qed.
Print Assumptions C82_idle.

(** False for other ways: cancelling from the start of the book can panic though the reserved margin is right. *)
Theorem C82_oldest_first_refuted : forall dbg, exists e outs, valid_config (T dbg) /\ history (T dbg) tied_ops e outs /\ in_sync (T dbg) e /\
  everything e (rev (last_first e)) /\ run (T dbg) e (cancels (rev (last_first e))) = Panic PCancelMarginGrows.
Proof. exact oldest_first_stuck. Qed.
Print Assumptions C82_oldest_first_refuted.

(** Closing before cancelling can make the cancellations panic. *)
Theorem C82_close_first_refuted : forall dbg, exists e outs, valid_config (L dbg) /\ history (L dbg) hedged_ops e outs /\ in_sync (L dbg) e /\
  closable (L dbg) e /\ run (L dbg) e (closing e 9 ++ cancels (last_first e)) = Panic PCancelMargin.
Proof. exact close_first_stuck. Qed.
Print Assumptions C82_close_first_refuted.

(** In release builds money can stay behind as position margin of no position. *)
Theorem C82_all_in_wallet_refuted : exists e outs e' outs', valid_config (T false) /\ history (T false) truncated_ops e outs /\ in_sync (T false) e /\
  closable (T false) e /\ run (T false) e (cancels (last_first e) ++ closing e 9) = Done (e', outs') /\ left_market e' /\ position_margin_of e' = 1.
Proof. exact left_margin. Qed.
Print Assumptions C82_all_in_wallet_refuted.

(** A long with one resting sell: the hypotheses hold, and two calls end in an empty account. *)
Example C82_leaving : match play (L true) hedged_ops with
  | Done (e, _) => length (ex_active e) = 1%nat /\ position_quantity (ex_pos e) = d 1 /\
      match run (L true) e (cancels (last_first e) ++ closing e 9) with
      | Done (e', [Ok (OutLimit o); Ok (OutMarket f)]) => lo_price o = d 110 /\ fm_avg f = d 100 /\ ex_active e' = [] /\ ex_pos e' = Neutral /\
          wallet_of e' + fees_paid e' = d 999
      | _ => False end
  | Panic _ => False end.
Proof. vm_compute. repeat split. Qed.
