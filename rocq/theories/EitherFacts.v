(** Cases for C106. *)
From Verif Require Import ProofBase Types Accounting Position OrderBook OrderMargin MarketUpdate Exchange Spec SpecConfig SpecMarket SpecEntry SpecMargin SpecPanic Scenario ScenarioPanic SliceFacts.

Ltac one := split; [apply play_history; vm_compute; reflexivity|].
Ltac now1 := split; [vm_compute; reflexivity|].
Lemma either_case dbg : exists e outs e1 x e2 o e3 o' e4 x', valid_config (L dbg) /\ history (L dbg) [quote 100 101 1] e outs /\
  step (L dbg) e (OpLimit Buy (d 99) (d 2) 1) = Done (e1, Ok x) /\ step (L dbg) e1 (OpMarket Buy (d 1) 2) = Done (e2, Ok (OutMarket o)) /\
  step (L dbg) e (OpMarket Buy (d 1) 2) = Done (e3, Ok (OutMarket o')) /\ step (L dbg) e3 (OpLimit Buy (d 99) (d 2) 1) = Done (e4, Ok x') /\
  fm_id o = 1 /\ fm_id o' = 0 /\ position_quantity (ex_pos e4) = d 1 /\ length (ex_active e4) = 1%nat /\ wallet_of e4 = wallet_of e2.
Proof. destruct dbg; (do 10 eexists; split; [apply L_ok|]; one; do 8 now1; vm_compute; reflexivity). Qed.
Lemma either_margin dbg : exists e outs e1 x e2 o e3 o' e4 x', valid_config (L dbg) /\ history (L dbg) [quote 100 101 1] e outs /\
  step (L dbg) e (OpLimit Sell (d 110) (d 1) 1) = Done (e1, Ok x) /\ step (L dbg) e1 (OpMarket Buy (d 1) 2) = Done (e2, Ok (OutMarket o)) /\
  step (L dbg) e (OpMarket Buy (d 1) 2) = Done (e3, Ok (OutMarket o')) /\ step (L dbg) e3 (OpLimit Sell (d 110) (d 1) 1) = Done (e4, Ok x') /\
  order_margin_of e2 = d 110 /\ order_margin_of e4 = 0.
Proof. destruct dbg; (do 10 eexists; split; [apply L_ok|]; one; do 5 now1; vm_compute; reflexivity). Qed.
Lemma either_money dbg : exists e outs e1 x e2 e3 o' e4, valid_config (L dbg) /\ history (L dbg) [quote 100 101 1] e outs /\
  step (L dbg) e (OpLimit Buy (d 99) (d 9) 1) = Done (e1, Ok x) /\ step (L dbg) e1 (OpMarket Buy (d 5) 2) = Done (e2, Err (ERisk NotEnoughAvailableBalance)) /\
  step (L dbg) e (OpMarket Buy (d 5) 2) = Done (e3, Ok (OutMarket o')) /\ step (L dbg) e3 (OpLimit Buy (d 99) (d 9) 1) = Done (e4, Err (ERisk NotEnoughAvailableBalance)) /\
  position_quantity (ex_pos e2) = 0 /\ position_quantity (ex_pos e4) = d 5.
Proof. destruct dbg; (do 8 eexists; split; [apply L_ok|]; one; do 5 now1; vm_compute; reflexivity). Qed.
