(** The default contract specification and the exchanges set up for tests. *)
From Verif Require Import Base Types Filters Helpers.

(** [Option::unwrap], [Result::unwrap] and [expect]. *)
Definition unwrap_some {A} (o : option A) (p : panic_site) : outcome A := match o with Some a => Done a | None => Panic p end.
Definition unwrap_ok {E A} (r : result E A) (p : panic_site) : outcome A := match r with Ok a => Done a | Err _ => Panic p end.

(** src/contract_specification.rs:101-117, [ContractSpecification::default], for [D] decimals.
    The ticker and [MarkMethod] are written but never read by the crate and are not modelled. *)
Definition contract_default (m : inexact) (D : nat) : outcome contract :=
  let s := 10 ^ Z.of_nat D in
  lev <- unwrap_ok (leverage_new s 1) PDefaultLeverage ;;
  half <- ddiv s s (2 * s) ;;
  maker <- unwrap_some (try_from_scaled m s 2 4) PDefaultFee ;;
  taker <- unwrap_some (try_from_scaled m s 6 4) PDefaultFee ;;
  r <- contract_new s lev half (price_filter_default s) (quantity_filter_default s) maker taker ;;
  unwrap_ok r PDefaultContract.

(** src/mock_exchange.rs:12, [DECIMALS]. *)
Definition mock_decimals : nat := 5.
Definition mock_scale : Z := 10 ^ Z.of_nat mock_decimals.
(** src/mock_exchange.rs:15-22, [test_fee_maker] and [test_fee_taker]. *)
Definition test_fee_maker (m : inexact) : outcome Z := unwrap_some (try_from_scaled m mock_scale 2 4) PMockSetup.
Definition test_fee_taker (m : inexact) : outcome Z := unwrap_some (try_from_scaled m mock_scale 6 4) PMockSetup.

(** The contract specification of the three functions below. *)
Definition mock_contract (m : inexact) (qf : quantity_filter) : outcome contract :=
  lev <- unwrap_ok (leverage_new mock_scale 1) PMockSetup ;;
  fraction <- unwrap_some (try_from_scaled m mock_scale 5 1) PMockSetup ;;
  maker <- test_fee_maker m ;;
  taker <- test_fee_taker m ;;
  r <- contract_new mock_scale lev fraction (price_filter_default mock_scale) qf maker taker ;;
  unwrap_ok r PMockSetup.

(** The configurations of src/mock_exchange.rs:27-48, [mock_exchange_linear], 53-75,
    [mock_exchange_linear_with_account_tracker], and 78-101, [mock_exchange_inverse]. *)
Definition mock_linear (m : inexact) (dbg : bool) (start max : Z) : outcome config :=
  tick <- currency_new m mock_scale 1 2 ;;
  qf <- quantity_filter_new None None tick ;;
  qf <- unwrap_ok qf PMockSetup ;;
  ct <- mock_contract m qf ;;
  unwrap_ok (config_new Linear mock_scale dbg start max ct 3600) PMockSetup.
Definition mock_exchange_linear (m : inexact) (dbg : bool) : outcome config :=
  start <- currency_new m mock_scale 1000 0 ;; mock_linear m dbg start 10.
Definition mock_exchange_linear_with_account_tracker (m : inexact) (dbg : bool) (start : Z) : outcome config :=
  mock_linear m dbg start 200.
Definition mock_exchange_inverse (m : inexact) (dbg : bool) (start : Z) : outcome config :=
  ct <- mock_contract m (quantity_filter_default mock_scale) ;;
  unwrap_ok (config_new Inverse mock_scale dbg start 200 ct 3600) PMockSetup.
