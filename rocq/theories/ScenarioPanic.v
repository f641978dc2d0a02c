(** Histories that end in a panic. *)
From Verif Require Import Base Types Filters Accounting Currency Position OrderBook OrderMargin
  Risk MarketUpdate Tracker Exchange Spec SpecConfig SpecPanic Scenario.

(** After the calls [ops] the call [o] panics at [w]. *)
Definition crashes (c : config) (ops : list op) (o : op) (w : panic_site) : Prop :=
  valid_config c /\ exists e outs, history c ops e outs /\ step c e o = Panic w.

Lemma demo_valid k dbg lev maker taker start max :
  In lev [1; 2; 5; 10; 20] -> 0 < start -> 0 <= max <= 10000 -> valid_config (demo k dbg lev maker taker start max).
Proof.
  intros Hl Hs Hm. repeat (destruct Hl as [<-|Hl]); try contradiction;
  (constructor; [reflexivity | vm_compute; split; discriminate | vm_compute; split; discriminate
    | discriminate | discriminate | exact Hs | exact Hm]).
Qed.
Lemma tiny_valid k dbg : valid_config (tiny k dbg).
Proof. constructor; try discriminate; try reflexivity; vm_compute; split; discriminate. Qed.

Definition panic_site_eq_dec (a b : panic_site) : {a = b} + {a <> b}.
Proof. decide equality. Defined.

(** Long 1, a hedged resting sell of 1 that reserves nothing, then the position is closed by a market order. *)
Definition stale_ops : list op :=
  [ quote 100 101 1; OpMarket Buy (d 1) 1; OpLimit Sell (d 110) (d 1) 2; OpMarket Sell (d 1) 3 ].
(** Short 1, then a buy at 90 and a buy at 100. *)
Definition uneven_ops : list op :=
  [ quote 104 105 1; OpMarket Sell (d 1) 1; OpLimit Buy (d 90) (d 1) 2; OpLimit Buy (d 100) (d 1) 3 ].
(** Two purchases of 0.3 at 0.5, each worth 0.1 after truncation. *)
Definition truncated_ops : list op := [ raw_quote 4 5 1; OpMarket Buy 3 1; OpMarket Buy 3 2 ].
Definition smart (l : list trade) (bid ask : Z) (f : price_filter) : op :=
  OpUpdate (RSmart l {| bb_bid := d bid; bb_ask := d ask; bb_ts := 9 |} f).
Definition buy_trade (p q : Z) : trade := {| tr_price := p; tr_qty := q; tr_side := Buy; tr_ts := 9 |}.
Definition demo_pf : price_filter := ct_pf (demo_contract 1 2 6).
Definition loose_pf (t : Z) : price_filter := {| pf_min := None; pf_max := None; pf_tick := t; pf_up := d 2; pf_down := 0 |}.
(** [demo] with a largest order quantity of 1. *)
Definition capped (dbg : bool) : config :=
  {| c_kind := Linear; c_scale := S4; c_dbg := dbg; c_start := d 1000; c_max := 10;
     c_spec := {| ct_imr := S4; ct_mm := 5000; ct_pf := demo_pf;
                  ct_qf := {| qf_min := None; qf_max := Some (d 1); qf_tick := 1000 |};
                  ct_maker := 2; ct_taker := 6 |};
     c_sample_s := 10 |}.

Definition ends_in (c : config) (ops : list op) (o : op) : option panic_site :=
  match play c ops with
  | Done (e, _) => match step c e o with Panic w => Some w | Done _ => None end
  | Panic _ => None
  end.

Lemma crash_by c ops o w : valid_config c -> ends_in c ops o = Some w -> crashes c ops o w.
Proof.
  intros V H. split; [exact V|]. unfold ends_in in H. destruct (play c ops) as [[e outs]|] eqn:E; [|discriminate].
  apply play_history in E. exists e, outs. split; [exact E|]. destruct (step c e o); [discriminate|]. injection H as ->. reflexivity.
Qed.

Definition raw_trade (sd : side) (p q ts : Z) : op := OpUpdate (RTrade {| tr_price := p; tr_qty := q; tr_side := sd; tr_ts := ts |}).

(** Witnesses: for each call a configuration, a history and the assertion that fires. *)
Definition witness := (config * list op * op * panic_site)%type.
Definition L (b : bool) : config := demo_cfg Linear b.
Definition T (b : bool) : config := tiny Linear b.
Definition one_long : list op := [quote 100 101 1; OpMarket Buy (d 1) 1].

Definition market_witnesses : list witness :=
  [ (L false, [], OpMarket Buy (d 1) 1, PSettlePrice);
    (T false, [raw_quote 4 5 1], OpMarket Buy 1 1, PTxAmount);
    (tiny Inverse false, [], OpMarket Buy 1 1, PDivByZero);
    (T true, [raw_quote 4 5 1; OpMarket Buy 2 1], OpMarket Sell 1 2, PMarginToFreeDebug);
    (T true, truncated_ops, OpMarket Sell 6 3, PCloseMarginDebug);
    (T false, truncated_ops, OpMarket Sell 7 3, PFlipMargin) ].
Definition limit_witnesses : list witness := [ (L false, stale_ops, OpLimit Buy (d 90) (d 12) 1, PWalletNegative) ].
Definition cancel_witnesses : list witness :=
  [ (L false, stale_ops, OpCancel (ByUserOrderId 2), PCancelMargin);
    (T false, tied_ops, OpCancel (ByOrderId 1), PCancelMarginGrows) ].
Definition amend_witnesses : list witness :=
  [ (L false, stale_ops, OpAmend 1 Sell (d 111) (d 1) 1, PCancelMargin);
    (T false, tied_ops, OpAmend 1 Buy 1 2 1, PCancelMarginGrows) ].
Definition update_witnesses : list witness :=
  [ (L false, one_long, quote (-100) 1 3, PSettlePrice);
    (capped false, one_long ++ [OpMarket Buy (d 1) 1], quote 1 2 3, PLiquidateSubmit);
    (L false, one_long, smart [buy_trade (d 5) (d 1)] 100 101 (loose_pf 0), PDivByZero);
    (L false, one_long, smart [] 100 101 demo_pf, PSmartEmpty);
    (L true, one_long, smart [buy_trade 5 (d 1)] 100 101 demo_pf, PSmartNoValidDebug);
    (L false, one_long, smart [buy_trade (d 5) (d 1)] 101 100 demo_pf, PSmartBba);
    (L true, one_long, smart [buy_trade (d 5) 0] 100 101 demo_pf, PSmartQtyDebug);
    (L true, one_long, raw_quote 5 6 6, PInvalidUpdateDebug);
    (L true, stale_ops, taker Buy 105 0 2, PTradeQtyDebug);
    (L false, stale_ops, taker Buy 111 0 2, PFillNonPos);
    (L true, stale_ops, taker Buy 105 (d 1) 2, PEndMarginDebug);
    (demo Linear false 10 2 6 (d 100) 10, [quote 100 101 1; OpMarket Buy (d 9) 1; quote 10 11 2], taker Sell 80 (d 1) 3, PWalletNegative);
    (L true, stale_ops, taker Buy 111 (d 1) 2, PFillMarginDebug);
    (L true, uneven_ops, taker Sell 80 (d 1) 2, PFillMarginGrowsDebug);
    (T false, [raw_quote 4 5 1; OpLimit Buy 4 1 1], raw_trade Sell 3 1 2, PTxAmount);
    (T true, [raw_quote 4 5 1; OpMarket Buy 2 1; OpLimit Sell 7 1 1], raw_trade Buy 8 1 2, PMarginToFreeDebug);
    (T true, truncated_ops ++ [OpLimit Sell 7 6 1], raw_trade Buy 8 6 2, PCloseMarginDebug);
    (T false, truncated_ops ++ [OpLimit Sell 7 9 1], raw_trade Buy 8 9 2, PFlipMargin) ].

Definition crash_of (w : witness) : Prop := let '(c, ops, o, p) := w in crashes c ops o p.
Definition checked (w : witness) : bool :=
  let '(c, ops, o, p) := w in
  match ends_in c ops o with Some p' => if panic_site_eq_dec p' p then true else false | None => false end.

Lemma checked_crashes l :
  (forall c ops o p, In (c, ops, o, p) l -> valid_config c) -> forallb checked l = true ->
  forall w, In w l -> crash_of w.
Proof.
  intros V H w Hw. rewrite forallb_forall in H. specialize (H _ Hw). destruct w as [[[c ops] o] p]. cbn in *.
  destruct (ends_in c ops o) as [p'|] eqn:E; [|discriminate]. destruct (panic_site_eq_dec p' p); [subst p'|discriminate].
  apply crash_by; [eapply V; exact Hw | exact E].
Qed.
Lemma capped_valid dbg : valid_config (capped dbg).
Proof. constructor; try discriminate; try reflexivity; vm_compute; split; discriminate. Qed.

Ltac valid_all :=
  let H := fresh in intros ? ? ? ? H; cbn in H;
  repeat (destruct H as [H|H]; [injection H as <- _ _ _; first [apply tiny_valid | apply capped_valid
    | apply demo_valid; [cbn; tauto | reflexivity | vm_compute; split; discriminate]] |]); destruct H.

Lemma market_checked w : In w market_witnesses -> crash_of w.
Proof. apply checked_crashes; [valid_all | vm_compute; reflexivity]. Qed.
Lemma limit_checked w : In w limit_witnesses -> crash_of w.
Proof. apply checked_crashes; [valid_all | vm_compute; reflexivity]. Qed.
Lemma cancel_checked w : In w cancel_witnesses -> crash_of w.
Proof. apply checked_crashes; [valid_all | vm_compute; reflexivity]. Qed.
Lemma amend_checked w : In w amend_witnesses -> crash_of w.
Proof. apply checked_crashes; [valid_all | vm_compute; reflexivity]. Qed.
Lemma update_checked w : In w update_witnesses -> crash_of w.
Proof. apply checked_crashes; [valid_all | vm_compute; reflexivity]. Qed.

(** Which call a witness is about. *)
Definition same_call (a b : op) : Prop :=
  match a, b with
  | OpUpdate _, OpUpdate _ | OpMarket _ _ _, OpMarket _ _ _ | OpLimit _ _ _ _, OpLimit _ _ _ _
  | OpCancel _, OpCancel _ | OpAmend _ _ _ _ _, OpAmend _ _ _ _ _ | OpCheck _, OpCheck _ => True
  | _, _ => False
  end.

Lemma sites_tight o w :
  is_check o = false -> In w (sites o) -> exists c ops o', same_call o o' /\ crashes c ops o' w.
Proof.
  intros Hc H.
  assert (K : forall l, (forall x, In x l -> crash_of x) ->
    (exists c ops o', In (c, ops, o', w) l /\ same_call o o') -> exists c ops o', same_call o o' /\ crashes c ops o' w).
  { intros l Hl (c & ops & o' & Hi & Hs). exists c, ops, o'. split; [exact Hs | exact (Hl _ Hi)]. }
  destruct o; try discriminate; cbn in H;
  [apply (K _ update_checked) | apply (K _ market_checked) | apply (K _ limit_checked) | apply (K _ cancel_checked) | apply (K _ amend_checked)];
  repeat (destruct H as [<-|H]; [do 3 eexists; split; [cbn; repeat (first [left; reflexivity | right]) | exact Logic.I]|]); destruct H.
Qed.
