(** Cases for C94. *)
From Verif Require Import ProofBase Types Accounting Position OrderBook OrderMargin MarketUpdate Exchange Spec SpecConfig SpecMarket SpecMargin SpecPanic SpecBargain Scenario ScenarioPanic ScenarioBargain SliceFacts.

Lemma penny_ok dbg : valid_config (penny dbg).
Proof. constructor; cbn; lia. Qed.

Ltac two := split; [apply play_history; vm_compute; reflexivity|]; split; [apply play_history; vm_compute; reflexivity|].
Ltac done1 := split; [vm_compute; reflexivity|].

Lemma simple_case dbg : exists e1 x1 e2 x2 f1 o1 f2 o2, history (L dbg) (owner ++ [quote 99 100 2]) e1 x1 /\ history (L dbg) (owner ++ [quote 102 103 2]) e2 x2 /\ valid_config (L dbg) /\
  statement_of e1 = statement_of e2 /\ - c_scale (L dbg) <= ct_taker (c_spec (L dbg)) <= c_scale (L dbg) /\ no_worse Sell (deal e2 Sell) (deal e1 Sell) /\ opens_or_reduces e1 Sell (d 1) /\
  step (L dbg) e1 (OpMarket Sell (d 1) 2) = Done (f1, Ok o1) /\ step (L dbg) e2 (OpMarket Sell (d 1) 2) = Done (f2, Ok o2) /\ worth (L dbg) (d 100) f1 < worth (L dbg) (d 100) f2.
Proof.
  destruct dbg; (do 8 eexists; two; split; [apply L_ok|]; done1; split; [split; vm_compute; discriminate|]; split; [vm_compute; discriminate|];
  split; [right; vm_compute; discriminate|]; done1; done1; vm_compute; reflexivity).
Qed.
Lemma smaller_case dbg : exists e1 x1 e2 x2 f1 o1 f2 o2, history (L dbg) (owner ++ [quote 103 104 2]) e1 x1 /\ history (L dbg) (owner ++ [quote 102 103 2]) e2 x2 /\ valid_config (L dbg) /\
  statement_of e1 = statement_of e2 /\ 0 <= ct_taker (c_spec (L dbg)) /\ smaller_is_better (c_kind (L dbg)) Buy /\ no_worse Buy (deal e2 Buy) (deal e1 Buy) /\
  step (L dbg) e1 (OpMarket Buy (d 1) 2) = Done (f1, Ok o1) /\ step (L dbg) e2 (OpMarket Buy (d 1) 2) = Done (f2, Ok o2) /\ worth (L dbg) (d 100) f1 < worth (L dbg) (d 100) f2.
Proof.
  destruct dbg; (do 8 eexists; two; split; [apply L_ok|]; done1; split; [vm_compute; discriminate|]; split; [exact I|]; split; [vm_compute; discriminate|]; done1; done1; vm_compute; reflexivity).
Qed.
Lemma adding_case dbg : exists e1 x1 e2 x2 f1 o1 f2 o2, history (penny dbg) (debtor ++ [raw_quote 9 11 2]) e1 x1 /\ history (penny dbg) (debtor ++ [raw_quote 10 11 2]) e2 x2 /\ valid_config (penny dbg) /\
  statement_of e1 = statement_of e2 /\ deal e1 Sell = 9 /\ deal e2 Sell = 10 /\
  step (penny dbg) e1 (OpMarket Sell 10 2) = Done (f1, Ok o1) /\ step (penny dbg) e2 (OpMarket Sell 10 2) = Done (f2, Ok o2) /\ forall m, worth (penny dbg) m f2 = worth (penny dbg) m f1 - 1.
Proof.
  destruct dbg; (do 8 eexists; two; split; [apply penny_ok|]; do 5 done1; intros m; unfold worth, gain; cbn -[value]; change (value Linear 10 110 14) with 154; lia).
Qed.
Lemma turning_case dbg : exists e1 x1 e2 x2 f1 o1 f2 o2, history (penny dbg) (small_owner ++ [raw_quote 12 14 2]) e1 x1 /\ history (penny dbg) (small_owner ++ [raw_quote 13 14 2]) e2 x2 /\ valid_config (penny dbg) /\
  statement_of e1 = statement_of e2 /\ deal e1 Sell = 12 /\ deal e2 Sell = 13 /\
  step (penny dbg) e1 (OpMarket Sell 8 2) = Done (f1, Ok o1) /\ step (penny dbg) e2 (OpMarket Sell 8 2) = Done (f2, Ok o2) /\ wealth_of f2 = wealth_of f1 - 1 /\ worth (penny dbg) 13 f2 = worth (penny dbg) 13 f1 - 1.
Proof.
  destruct dbg; (do 8 eexists; two; split; [apply penny_ok|]; do 6 done1; vm_compute; reflexivity).
Qed.
Lemma dear_case dbg : exists e1 x1 e2 x2 f1 o1 f2, history (penny dbg) [raw_quote 10 12 1] e1 x1 /\ history (penny dbg) [raw_quote 11 12 1] e2 x2 /\ valid_config (penny dbg) /\
  statement_of e1 = statement_of e2 /\ deal e1 Sell = 10 /\ deal e2 Sell = 11 /\
  step (penny dbg) e1 (OpMarket Sell 900 2) = Done (f1, Ok o1) /\ step (penny dbg) e2 (OpMarket Sell 900 2) = Done (f2, Err (ERisk NotEnoughAvailableBalance)).
Proof.
  destruct dbg; (do 7 eexists; two; split; [apply penny_ok|]; do 4 done1; vm_compute; reflexivity).
Qed.
Lemma cheap_case dbg : exists e1 x1 e2 x2 f1 o1, history (penny dbg) [raw_quote 8 10 1] e1 x1 /\ history (penny dbg) [raw_quote 8 9 1] e2 x2 /\ valid_config (penny dbg) /\
  statement_of e1 = statement_of e2 /\ deal e1 Buy = 10 /\ deal e2 Buy = 9 /\
  step (penny dbg) e1 (OpMarket Buy 1 2) = Done (f1, Ok o1) /\ step (penny dbg) e2 (OpMarket Buy 1 2) = Panic PTxAmount.
Proof.
  destruct dbg; (do 6 eexists; two; split; [apply penny_ok|]; do 4 done1; vm_compute; reflexivity).
Qed.
Lemma inverse_case dbg : exists e1 x1 e2 x2 f1 o1 f2 o2, history (demo_cfg Inverse dbg) [quote 100 101 1; OpMarket Sell (d 100) 1; quote 98 99 2] e1 x1 /\
  history (demo_cfg Inverse dbg) [quote 100 101 1; OpMarket Sell (d 100) 1; quote 99 100 2] e2 x2 /\
  statement_of e1 = statement_of e2 /\ 0 <= ct_taker (c_spec (demo_cfg Inverse dbg)) /\ smaller_is_better (c_kind (demo_cfg Inverse dbg)) Sell /\ no_worse Sell (deal e2 Sell) (deal e1 Sell) /\
  0 < position_entry_price (ex_pos f1) /\ step (demo_cfg Inverse dbg) e1 (OpMarket Sell (d 50) 2) = Done (f1, Ok o1) /\ step (demo_cfg Inverse dbg) e2 (OpMarket Sell (d 50) 2) = Done (f2, Ok o2) /\
  worth (demo_cfg Inverse dbg) (d 100) f1 < worth (demo_cfg Inverse dbg) (d 100) f2.
Proof.
  destruct dbg; (do 8 eexists; two; done1; split; [vm_compute; discriminate|]; split; [exact I|]; split; [vm_compute; discriminate|];
  match goal with |- ?A /\ ?B /\ ?C => cut (B /\ A /\ C); [tauto|] end; done1; split; [vm_compute; reflexivity|]; done1; vm_compute; reflexivity).
Qed.
