(** Calls for the examples of C95. *)
From Verif Require Import Base Types MarketUpdate Exchange Spec Scenario ScenarioPanic.

(** One bid for one contract at 99, or at 98. *)
Definition eager : list op := [ quote 100 101 1; OpLimit Buy (d 99) (d 1) 2 ].
Definition calm : list op := [ quote 100 101 1; OpLimit Buy (d 98) (d 1) 2 ].
(** A trade below both prices, a trade below the higher one only, and a candle with both trades. *)
Definition deep : raw_update := RTrade {| tr_price := d 97; tr_qty := d 1; tr_side := Sell; tr_ts := 3 |}.
Definition shallow : raw_update := RTrade {| tr_price := d 98; tr_qty := d 1; tr_side := Sell; tr_ts := 3 |}.
Definition candle : raw_update :=
  RSmart [ {| tr_price := d 98; tr_qty := 4000; tr_side := Sell; tr_ts := 3 |}; {| tr_price := d 97; tr_qty := 3000; tr_side := Sell; tr_ts := 4 |} ]
         {| bb_bid := d 97; bb_ask := d 98; bb_ts := 4 |} (ct_pf (demo_contract 1 2 6)).
