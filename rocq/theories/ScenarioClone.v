(** Histories with copies of the exchange. *)
From Verif Require Import Base Types MarketUpdate Exchange Clone SpecClone Scenario.

Definition with_copies (c : config) (l : list xop) : outcome (xchg * list (result error out)) :=
  x0 <- x_init c ;; x_run c x0 l.

(** A quote, two resting orders; then a copy. *)
Definition two_orders : list xop :=
  map XCall [quote 100 101 1; OpLimit Buy (d 99) (d 1) 7; OpLimit Sell (d 103) (d 1) 8].

(** A trade that fills nothing. *)
Definition idle_trade : raw_update := RTrade {| tr_price := d 101; tr_qty := d 1; tr_side := Buy; tr_ts := 2 |}.

(** Two orders, a copy, and a trade that fills one of them completely. *)
Definition filling_trade : raw_update := RTrade {| tr_price := d 98; tr_qty := d 1; tr_side := Sell; tr_ts := 2 |}.
Definition with_limit (n : Z) : config := with_max (demo_cfg Linear true) n.
