(** Cases for C96. *)
From Verif Require Import ProofBase Types Accounting Position OrderBook OrderMargin MarketUpdate Exchange Spec SpecConfig SpecMarket SpecMargin SpecPanic SpecMachine SpecCrash SpecNews Scenario ScenarioPanic ScenarioNews SliceFacts.

Ltac one := split; [apply play_history; vm_compute; reflexivity|].
Ltac now1 := split; [vm_compute; reflexivity|].
Lemma same_case dbg : exists e x f f' u, history (L dbg) bids e x /\ valid_config (L dbg) /\
  same_news (RCandle short_candle) (RSmart [bought 103; sold 98] (quote_in short_candle 5) (ct_pf (c_spec (L dbg)))) (ex_active e) /\
  step (L dbg) e (OpUpdate (RCandle short_candle)) = Done (f, Ok (OutUpdates [u])) /\
  step (L dbg) e (OpUpdate (RSmart [bought 103; sold 98] (quote_in short_candle 5) (ct_pf (c_spec (L dbg))))) = Done (f', Ok (OutUpdates [u])) /\ machine_of f' = machine_of f.
Proof.
  destruct dbg; (do 5 eexists; one; split; [apply L_ok|]; split; [split; [reflexivity|]; split; [reflexivity|]; intros o [<-|[<-|[]]]; vm_compute; reflexivity|]; do 2 now1; vm_compute; reflexivity).
Qed.
Lemma one_trade_case dbg : exists e x f g u, history (L dbg) bids e x /\ valid_config (L dbg) /\ fit (L dbg) (quote_in short_candle 3) (sold 98) /\
  step (L dbg) e (OpUpdate (RSmart [sold 98] (quote_in short_candle 3) (ct_pf (c_spec (L dbg))))) = Done (f, Ok (OutUpdates [u])) /\
  run (L dbg) e [OpUpdate (RBba (quote_in short_candle 3)); OpUpdate (RTrade (sold 98))] = Done (g, [Ok (OutUpdates []); Ok (OutUpdates [u])]) /\ position_quantity (ex_pos g) = d 1.
Proof.
  destruct dbg; (do 5 eexists; one; split; [apply L_ok|]; split; [intros _; vm_compute; repeat split|]; do 2 now1; vm_compute; reflexivity).
Qed.
Lemma candle_case dbg : exists e x f g u, history (L dbg) bids e x /\ valid_config (L dbg) /\ sweeps short_candle Buy (ex_active e) (sold 98) /\ fit (L dbg) (quote_in short_candle 3) (sold 98) /\
  step (L dbg) e (OpUpdate (RCandle short_candle)) = Done (f, Ok (OutUpdates [u])) /\
  run (L dbg) e [OpUpdate (RBba (quote_in short_candle 3)); OpUpdate (RTrade (sold 98))] = Done (g, [Ok (OutUpdates []); Ok (OutUpdates [u])]) /\ position_quantity (ex_pos g) = d 1.
Proof.
  destruct dbg; (do 5 eexists; one; split; [apply L_ok|]; split; [split; [reflexivity|]; split; [split; reflexivity|]; intros o [<-|[<-|[]]]; (split; [reflexivity | vm_compute; discriminate])|];
  split; [intros _; vm_compute; repeat split|]; do 2 now1; vm_compute; reflexivity).
Qed.
Lemma candles_case dbg : exists e x f f' u v w, history (L dbg) both_sides e x /\ valid_config (L dbg) /\ covers long_candle [bought 105; sold 96] (ex_active e) /\
  step (L dbg) e (OpUpdate (RCandle long_candle)) = Done (f, Ok (OutUpdates [u; v; w])) /\
  step (L dbg) e (OpUpdate (RSmart [bought 105; sold 96] (quote_in long_candle 5) (ct_pf (c_spec (L dbg))))) = Done (f', Ok (OutUpdates [u; v; w])) /\ position_quantity (ex_pos f) = d 1.
Proof.
  destruct dbg; (do 7 eexists; one; split; [apply L_ok|]; split; [split; [intros t [<-|[<-|[]]]; split; vm_compute; discriminate | intros o [<-|[<-|[<-|[]]]] _; vm_compute; discriminate]|];
  do 2 now1; vm_compute; reflexivity).
Qed.
Lemma two_sides_case dbg : exists e x f r g y, history (L dbg) both_sides e x /\ valid_config (L dbg) /\ step (L dbg) e (OpUpdate (RCandle long_candle)) = Done (f, Ok r) /\
  run (L dbg) e [OpUpdate (RBba (quote_in long_candle 5)); OpUpdate (RTrade (sold 96)); OpUpdate (RTrade (bought 105))] = Done (g, y) /\
  ex_active f = [] /\ ex_active g = [] /\ position_quantity (ex_pos f) = d 1 /\ position_quantity (ex_pos g) = d 1 /\
  position_entry_price (ex_pos f) = d 97 /\ position_entry_price (ex_pos g) = d 98 /\ wealth_of f < wealth_of g.
Proof.
  destruct dbg; (do 6 eexists; one; split; [apply L_ok|]; do 8 now1; vm_compute; reflexivity).
Qed.
