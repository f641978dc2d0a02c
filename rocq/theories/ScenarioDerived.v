(** Histories after which a derived statistic overflows. *)
From Verif Require Import Base Types MarketUpdate Exchange Data Scenario.

(** [n] times 9 contracts are bought at 100.1 and sold at 100. *)
Fixpoint round_trips (n : nat) : list op :=
  match n with O => [] | S n' => OpMarket Buy (d 9) 1 :: OpMarket Sell (d 9) 2 :: round_trips n' end.
Definition busy_cfg : config := demo Linear false 10 0 0 (d 1000) 10.
Definition busy_ops (n : nat) : list op := raw_quote 1000000 1001000 1 :: round_trips n.
(** The first mid price is 0.015, the last is 100.05. *)
Definition penny_ops : list op := [ raw_quote 100 200 1; raw_quote 1000000 1001000 2 ].
(** The first update is stamped 158 years before the epoch, the last 158 years after it. *)
Definition ancient_ops : list op := [ quote 100 101 (- 5000000000000000000); quote 100 101 5000000000000000000 ].
Definition row (ms : Z) : csv_row := {| cr_ms := ms; cr_price := d 100; cr_size := d 1 |}.
(** A later quote, at which the balance is sampled. *)
Definition sampled_ops : list op := demo_ops ++ [quote 150 151 20000000000].
