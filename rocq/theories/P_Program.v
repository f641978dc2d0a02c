(** Property C84: what the example program does. *)
From Verif Require Import Base Types Accounting Filters Position OrderBook OrderMargin MarketUpdate Exchange Helpers Spec SpecConfig SpecMarket
  SpecMachine Program SpecProgram ProgramProof ScenarioProgram ProgramFacts.

(** The set-up succeeds, whatever [try_from_scaled] does with inexact values, and is a valid configuration. *)
Theorem C84_setup : forall m dbg, program_config m dbg = Done (example_account dbg) /\ valid_config (example_account dbg).
Proof. exact (fun m dbg => conj (program_config_is m dbg) (example_valid dbg)). Qed.
Print Assumptions C84_setup.

(** Every run is a history of calls of a new exchange, so that everything proved about histories holds for it; a crash is the panic
    of the last call. *)
Theorem C84_calls : forall m dbg coins prices ops outs fin, program m dbg coins prices = Done (ops, outs, fin) ->
  match fin with
  | Finished e | Rekt e | NoOrder e => history (example_account dbg) ops e outs
  | Crashed w => exists e0, init (example_account dbg) = Done e0 /\ run (example_account dbg) e0 ops = Panic w
  end.
Proof. exact program_calls. Qed.
Print Assumptions C84_calls.

(** A run to the end has quoted every price once, in order, and has sent one order for every hundredth price, on the side of the coin. *)
Theorem C84_finished : forall m dbg coins prices ops outs e, program m dbg coins prices = Done (ops, outs, Finished e) ->
  quotes_of ops = quoted 0 prices /\ map fst (orders_of ops) = chosen coins 0 (length prices) /\ length outs = length ops /\
  forall o, In o ops -> match o with OpUpdate (RBba _) => True | OpMarket _ q _ => 0 < q | _ => False end.
Proof. exact program_finished. Qed.
Print Assumptions C84_finished.

Example C84_three_hundred : map fst (orders_of (ops_of (program Refuse true turn_around (plateaus [1000; 1000; 1000])))) = [Buy; Buy; Sell] /\
  accepted (program Refuse true turn_around (plateaus [1000; 1000; 1000])) = 1%nat.
Proof. vm_compute. auto. Qed.

(** The order is worth at most a tenth of the wallet.  It is refused unless its size happens to be a whole number of contracts;
    a whole number is never refused for lack of money unless the position margin has become negative. *)
Theorem C84_order : forall dbg e sd, reachable (example_account dbg) e -> 0 < ms_bid (ex_ms e) <= ms_ask (ex_ms e) ->
  program_size (example_account dbg) e = Done (contracts_for (tenth (wallet_of e)) (ms_bid (ex_ms e))) /\
  let q := contracts_for (tenth (wallet_of e)) (ms_bid (ex_ms e)) in 0 < q ->
  (forall p, ms_bid (ex_ms e) <= p -> margin_at (example_account dbg) q p <= tenth (wallet_of e)) /\
  match step (example_account dbg) e (OpMarket sd q 0) with
  | Done (e', r) =>
      (~ (10000 | q) -> r = Err (EOrder InvalidQuantityStepSize) /\ machine_of e' = machine_of e) /\
      ((10000 | q) -> (exists f, r = Ok (OutMarket f)) \/ (r = Err (ERisk NotEnoughAvailableBalance) /\ position_margin_of e < 0))
  | Panic _ => (10000 | q)
  end.
Proof. exact (fun dbg e sd R B => conj (size_is dbg e) (order_result dbg e sd R B)). Qed.
Print Assumptions C84_order.

(** At 112.0 and 120.0 the orders are 112 and 108 contracts, at 113.7 the second one would be 102.33 contracts. *)
Example C84_sizes : map snd (orders_of (ops_of (program Refuse true always_buy (plateaus [1120; 1200])))) = [1120000; 1080000] /\
  accepted (program Refuse true always_buy (plateaus [1120; 1200])) = 2%nat /\
  map snd (orders_of (ops_of (program Refuse true always_buy (plateaus [1120; 1137])))) = [1120000; 1023300] /\
  accepted (program Refuse true always_buy (plateaus [1120; 1137])) = 1%nat.
Proof. vm_compute. auto. Qed.

(** The program never trades at all while no price is a whole number: every order is refused and the wallet stays at 10.0. *)
Theorem C84_never_trades : forall m dbg coins prices,
  (forall p, In p prices -> 0 < p /\ (1000 | p) /\ ~ (10000 | p)) ->
  exists ops outs e, program m dbg coins prices = Done (ops, outs, Finished e) /\ position_quantity (ex_pos e) = 0 /\ wallet_of e = 100000 /\
    forall y, In y outs -> (exists x, y = Ok (OutUpdates x)) \/ y = Err (EOrder InvalidQuantityStepSize).
Proof. exact program_never_trades. Qed.
Print Assumptions C84_never_trades.

Example C84_half_prices : accepted (program Refuse true turn_around (plateaus [1005; 1105; 3005; 405])) = 0%nat /\
  length (outs_of (program Refuse true turn_around (plateaus [1005; 1105; 3005; 405]))) = 404%nat.
Proof. vm_compute. auto. Qed.

(** At prices of up to 9999.9 a run ends after the last price, with the liquidation, when a tenth of the wallet buys nothing, or with
    the failed assertion of a position that is turned around; in debug builds also with that of a position that is closed. *)
Theorem C84_endings : forall m dbg coins prices, low_prices prices ->
  exists ops outs fin, program m dbg coins prices = Done (ops, outs, fin) /\
  match fin with
  | Finished e => plain e
  | Rekt e => plain e /\ position_quantity (ex_pos e) = 0
  | NoOrder e => plain e /\ contracts_for (tenth (wallet_of e)) (ms_bid (ex_ms e)) <= 0
  | Crashed w => w = PFlipMargin \/ (dbg = true /\ w = PCloseMarginDebug)
  end.
Proof. exact program_endings. Qed.
Print Assumptions C84_endings.

Example C84_liquidated : forall m, low_prices (plateaus [1120; 1200; 500]) /\
  match fin_of (program m false always_buy (plateaus [1120; 1200; 500])) with
  | Some (Rekt e) => position_quantity (ex_pos e) = 0 /\ wallet_of e < 100000
  | _ => False end.
Proof. exact liquidated. Qed.

(** Coins that always fall on the same side cannot crash a release build at such prices. *)
Theorem C84_one_sided : forall m dbg coins sell prices, low_prices prices -> (forall j, coins j = sell) ->
  exists ops outs fin, program m dbg coins prices = Done (ops, outs, fin) /\
  forall w, fin = Crashed w -> dbg = true /\ w = PCloseMarginDebug.
Proof. exact program_one_sided. Qed.
Print Assumptions C84_one_sided.

Example C84_one_sided_case : low_prices (plateaus [1120; 1200; 3802]) /\ (forall j, always_buy j = false) /\
  accepted (program Refuse false always_buy (plateaus [1120; 1200; 3802])) = 3%nat.
Proof. split; [apply tenths_low; reflexivity|]. split; [reflexivity | vm_compute; reflexivity]. Qed.

(** Two purchases at 112.0 and 120.0 and a sale at 380.2 crash it. *)
Theorem C84_flip_refuted : forall m dbg, low_prices (plateaus [1120; 1200; 3802]) /\
  fin_of (program m dbg turn_around (plateaus [1120; 1200; 3802])) = Some (Crashed PFlipMargin).
Proof. exact flip_crash. Qed.
Print Assumptions C84_flip_refuted.

(** A debug build does not survive the liquidation of two purchases. *)
Theorem C84_liquidation_debug_refuted : forall m, low_prices (plateaus [1120; 1200; 500]) /\
  fin_of (program m true always_buy (plateaus [1120; 1200; 500])) = Some (Crashed PCloseMarginDebug).
Proof. exact close_crash. Qed.
Print Assumptions C84_liquidation_debug_refuted.

(** Selling at prices that happen to fit spends the wallet until a tenth of it is worth no contract at 0.1. *)
Theorem C84_broke_refuted : forall m dbg, low_prices (plateaus spending) /\
  match fin_of (program m dbg always_sell (plateaus spending)) with
  | Some (NoOrder e) => wallet_of e = 95 /\ ex_pos e <> Neutral
  | _ => False end.
Proof. exact low_broke. Qed.
Print Assumptions C84_broke_refuted.

(** At a constant price of 10000.0 it spends its money until it crashes: buying, when the margin of one contract at 10000.1 rounds to
    nothing, and selling, when the wallet is down to 9 units and the order has no contracts. *)
Theorem C84_high_prices_refuted : forall m dbg,
  fin_of (program m dbg always_buy (flat_market 100000 94)) = Some (Crashed PTxAmount) /\
  match fin_of (program m dbg always_sell (flat_market 100000 105)) with
  | Some (NoOrder e) => wallet_of e = 9 /\ ex_pos e <> Neutral
  | _ => False end.
Proof. exact (fun m dbg => conj (high_crash m dbg) (high_broke m dbg)). Qed.
Print Assumptions C84_high_prices_refuted.
