(** Histories about positions that are due for liquidation but not liquidated. *)
From Verif Require Import Base Types MarketUpdate Exchange Spec Scenario ScenarioPanic.

(** A resting buy at 99, filled by a candle that falls to 40 and ends there. *)
Definition crash_candle : raw_update :=
  RCandle {| cd_bid := d 40; cd_ask := d 41; cd_low := d 40; cd_high := d 101; cd_ts := 2 |}.
Definition crash_ops : list op := [ quote 100 101 1; OpLimit Buy (d 99) (d 1) 1 ].
(** A quote with a wide spread, and a purchase at it. *)
Definition wide_ops : list op := [ quote 40 101 1; OpMarket Buy (d 1) 1 ].
