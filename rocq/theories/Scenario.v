(** Concrete configurations and histories used as non-vacuity witnesses and in refutations. *)
From Verif Require Import Base Types Filters Accounting Currency Position OrderBook OrderMargin
  Risk MarketUpdate Tracker Exchange Spec.

(** Decimals with four places: [d 1] is 1.0000. *)
Definition S4 : Z := 10000.
Definition d (n : Z) : Z := n * S4.

(** A configuration built by the constructors of the code: leverage [lev], maintenance fraction one
    half, price tick 1, quantity tick 0.1, maker 0.02 %, taker 0.06 %, ten open orders. *)
Definition demo_contract (lev maker taker : Z) : contract :=
  {| ct_imr := Z.quot (S4 * S4) (lev * S4);
     ct_mm := Z.quot (Z.quot (S4 * S4) (lev * S4) * 5000) S4;
     ct_pf := {| pf_min := None; pf_max := None; pf_tick := d 1; pf_up := d 2; pf_down := 0 |};
     ct_qf := {| qf_min := None; qf_max := None; qf_tick := 1000 |};
     ct_maker := maker; ct_taker := taker |}.
Definition demo (k : kind) (dbg : bool) (lev maker taker start max : Z) : config :=
  {| c_kind := k; c_scale := S4; c_dbg := dbg; c_start := start; c_max := max;
     c_spec := demo_contract lev maker taker; c_sample_s := 10 |}.

Example demo_is_constructible :
  match contract_new S4 (d 2) 5000 (ct_pf (demo_contract 2 2 6)) (ct_qf (demo_contract 2 2 6)) 2 6 with
  | Done (Ok ct) => config_new Linear S4 true (d 1000) 10 ct 10 = Ok (demo Linear true 2 2 6 (d 1000) 10)
  | _ => False
  end.
Proof. vm_compute. reflexivity. Qed.

Definition quote (bid ask ts : Z) : op := OpUpdate (RBba {| bb_bid := d bid; bb_ask := d ask; bb_ts := ts |}).
Definition taker (sd : side) (p q ts : Z) : op :=
  OpUpdate (RTrade {| tr_price := d p; tr_qty := q; tr_side := sd; tr_ts := ts |}).

(** A history with every kind of reported call: quotes, market orders, partial and full limit fills, an
    amend, a rejected order, cancels, a smart candle, a position flip and a liquidation. *)
Definition demo_ops : list op :=
  [ quote 100 101 1;
    OpMarket Buy (d 1) 6;                        (* id 0: long 1 *)
    OpLimit Buy (d 99) (d 2) 7;                  (* id 1 *)
    OpLimit Sell (d 103) (d 1) 8;                (* id 2 *)
    OpLimit Buy (d 101) (d 1) 9;                 (* would cross: rejected, uses id 3 *)
    taker Sell 98 (d 1) 2;                       (* partial fill of id 1: long 2 *)
    OpAmend 1 Buy (d 98) (d 3) 7;                (* id 4, leaves quantity 2 *)
    OpCancel (ByOrderId 77);                     (* unknown id *)
    OpUpdate (RSmart [{| tr_price := d 104; tr_qty := 3000; tr_side := Buy; tr_ts := 4 |};
                      {| tr_price := d 105; tr_qty := 9000; tr_side := Buy; tr_ts := 5 |}]
                     {| bb_bid := d 102; bb_ask := d 103; bb_ts := 5 |}
                     (ct_pf (demo_contract 1 2 6)));   (* fills id 2: long 1 *)
    OpCancel (ByUserOrderId 7);
    OpMarket Sell (d 3) 10;                      (* flips to short 2 *)
    OpLimit Sell (d 104) (d 1) 11;               (* id 6, stays *)
    quote 160 161 6 ].                           (* liquidation *)

(** The first eight calls of it: an open position and two resting orders, one created by an amend. *)
Definition demo_mid : list op := firstn 8 demo_ops.

Definition demo_cfg (k : kind) (dbg : bool) : config := demo k dbg 1 2 6 (d 1000) 10.

(** Running a history from a fresh exchange. *)
Definition play (c : config) (ops : list op) : outcome (exchange * list (result error out)) :=
  e0 <- init c ;; run c e0 ops.

Lemma play_history c ops e outs : play c ops = Done (e, outs) -> history c ops e outs.
Proof. unfold play, bind. destruct (init c) as [e0|] eqn:E; [|discriminate]. exists e0. auto. Qed.

Definition results (m : outcome (exchange * list (result error out))) : list (result error out) :=
  match m with Done (_, l) => l | Panic _ => [] end.
Definition final (m : outcome (exchange * list (result error out))) : option exchange :=
  match m with Done (e, _) => Some e | Panic _ => None end.


(** An inverse history: market and limit fills, a flip and a liquidation. *)
Definition demo_inv : list op :=
  [ quote 99 100 1;
    OpMarket Buy (d 1000) 6;
    OpLimit Sell (d 125) (d 500) 8;
    taker Buy 126 (d 700) 2;
    quote 125 126 2;
    OpMarket Sell (d 1000) 9;
    quote 300 320 3 ].

(** A configuration with one decimal place, leverage 1 and no fees, to show the effects of rounding. *)
Definition tiny (k : kind) (dbg : bool) : config :=
  {| c_kind := k; c_scale := 10; c_dbg := dbg; c_start := 1000; c_max := 10;
     c_spec := {| ct_imr := 10; ct_mm := 5;
                  ct_pf := {| pf_min := None; pf_max := None; pf_tick := 1; pf_up := 20; pf_down := 0 |};
                  ct_qf := {| qf_min := None; qf_max := None; qf_tick := 1 |};
                  ct_maker := 0; ct_taker := 0 |};
     c_sample_s := 10 |}.
Definition raw_quote (bid ask ts : Z) : op := OpUpdate (RBba {| bb_bid := bid; bb_ask := ask; bb_ts := ts |}).
(** Two sells tied at 0.5, partly hedged by a long of 0.2. *)
Definition tied_ops : list op :=
  [ raw_quote 4 5 1; OpMarket Buy 2 1; OpLimit Buy 1 1 2; OpLimit Sell 5 3 3; OpLimit Sell 5 1 4 ].
Definition simple_order (id : Z) (sd : side) (price qty : Z) : limit_order :=
  {| lo_uid := 0; lo_side := sd; lo_price := price; lo_rem := qty; lo_id := id; lo_ts := 0; lo_filled := Unfilled |}.

(** A book of three orders and a long of two. *)
Definition c16_book : list limit_order :=
  [simple_order 1 Buy (d 99) (d 2); simple_order 2 Sell (d 101) (d 1); simple_order 3 Sell (d 103) (d 3)].
Definition c16_pos : position := Long {| pi_qty := d 2; pi_entry := d 100; pi_fees := 0 |}.
