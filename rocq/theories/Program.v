(** The example program, examples/basic.rs.  Printing and timing are left out, and so is the file the prices are read from
    (Data.v).  The numbers are unbounded; the program uses 64 bits (Fixed.v). *)
From Verif Require Import Base Types Accounting Filters Currency Position OrderBook OrderMargin MarketUpdate Exchange Helpers Defaults.

(** examples/basic.rs:11, [DECIMALS]. *)
Definition program_scale : Z := 10 ^ 4.

(** examples/basic.rs:16-36.  Every [unwrap] and [expect] panics with the same mark. *)
Definition program_config (m : inexact) (dbg : bool) : outcome config :=
  let s := program_scale in
  start <- currency_new m s 10 0 ;;
  lev <- unwrap_ok (leverage_new s 1) PMockSetup ;;
  fraction <- unwrap_some (try_from_scaled m s 5 1) PMockSetup ;;
  tick <- currency_new m s 1 1 ;;
  up <- unwrap_some (try_from_scaled m s 2 0) PMockSetup ;;
  pf <- price_filter_new s None None tick up 0 ;;
  pf <- unwrap_ok pf PMockSetup ;;
  maker <- unwrap_some (try_from_scaled m s 2 4) PMockSetup ;;
  taker <- unwrap_some (try_from_scaled m s 6 4) PMockSetup ;;
  ct <- contract_new s lev fraction pf (quantity_filter_default s) maker taker ;;
  ct <- unwrap_ok ct PMockSetup ;;
  unwrap_ok (config_new Inverse s dbg start 200 ct 3600) PMockSetup.

(** examples/basic.rs:57-63: the quote of the [i]-th price; the spread [Decimal::try_from_scaled(1, 1)] is 0.1. *)
Definition program_quote (i p : Z) : op := OpUpdate (RBba {| bb_bid := p; bb_ask := p + 1000; bb_ts := i |}).
(** examples/basic.rs:71-74: a tenth of the available wallet balance, in contracts at the bid. *)
Definition program_size (c : config) (e : exchange) : outcome Z :=
  convert_paired (c_kind c) (c_scale c) (dmul (c_scale c) (ub_wallet (balances e)) 1000) (ms_bid (ex_ms e)).
(** examples/basic.rs:75-80: the coin decides on the side. *)
Definition program_order (coin : bool) (q : Z) : op := OpMarket (if coin then Sell else Buy) q 0.

(** How the program ends: after the last price, with the [expect] of line 64, with an [unwrap] of [MarketOrder::new]
    (lines 76 and 79) or with a panic inside of the crate. *)
Inductive ending := Finished (e : exchange) | Rekt (e : exchange) | NoOrder (e : exchange) | Crashed (w : panic_site).

(** examples/basic.rs:55-87, the loop over the prices from index [i] on.  [coins] are the random numbers by index.  The first
    components are the calls made and the results of those that returned. *)
Fixpoint program_loop (c : config) (coins : Z -> bool) (i : Z) (e : exchange) (prices : list Z)
  : list op * list (result error out) * ending :=
  match prices with
  | [] => ([], [], Finished e)
  | p :: rest =>
      let u := program_quote i p in
      match step c e u with
      | Panic w => ([u], [], Crashed w)
      | Done (e1, Err x) => ([u], [Err x], Rekt e1)
      | Done (e1, Ok x) =>
          if i mod 100 =? 0 then
            match program_size c e1 with
            | Panic w => ([u], [Ok x], Crashed w)
            | Done q =>
                if q <=? 0 then ([u], [Ok x], NoOrder e1)
                else
                  let o := program_order (coins i) q in
                  match step c e1 o with
                  | Panic w => ([u; o], [Ok x], Crashed w)
                  | Done (e2, y) =>
                      let '(ops, outs, fin) := program_loop c coins (i + 1) e2 rest in
                      (u :: o :: ops, Ok x :: y :: outs, fin)
                  end
            end
          else
            let '(ops, outs, fin) := program_loop c coins (i + 1) e1 rest in
            (u :: ops, Ok x :: outs, fin)
      end
  end.

(** examples/basic.rs:13-93, [main]. *)
Definition program (m : inexact) (dbg : bool) (coins : Z -> bool) (prices : list Z)
  : outcome (list op * list (result error out) * ending) :=
  c <- program_config m dbg ;;
  e0 <- init c ;;
  Done (program_loop c coins 0 e0 prices).
