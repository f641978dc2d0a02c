(** Updates of a type of one's own. *)
From Verif Require Import Base Types MarketUpdate Exchange Custom SpecCustom Scenario.

(** Fills half of every resting order, wherever the market is, and leaves the market alone. *)
Definition half_of_all (ts : Z) : custom :=
  {| cu_can := true; cu_fill := fun o => Done (Some (Z.quot (lo_rem o) 2)); cu_valid := fun _ => Done true;
     cu_market := fun m => Done m; cu_ts := ts |}.
(** Fills sell orders in full, buy orders not at all, and sets the market to a price. *)
Definition all_sells (p ts : Z) : custom :=
  {| cu_can := true; cu_fill := fun o => Done (match lo_side o with Buy => None | Sell => Some (lo_rem o) end);
     cu_valid := fun _ => Done true;
     cu_market := fun m => Done {| ms_bid := d p; ms_ask := d p; ms_ts := 0; ms_step := 0 |}; cu_ts := ts |}.
(** Claims more than rests. *)
Definition too_much (ts : Z) : custom :=
  {| cu_can := true; cu_fill := fun o => Done (Some (lo_rem o + 1)); cu_valid := fun _ => Done true;
     cu_market := fun m => Done m; cu_ts := ts |}.

Definition play_mixed (c : config) (l : list xop) : outcome (exchange * list (result error out)) :=
  e0 <- init c ;; x_run c e0 l.

(** A quote, two resting orders. *)
Definition mixed_book : list xop :=
  map XCall [quote 100 101 1; OpLimit Buy (d 99) (d 2) 7; OpLimit Sell (d 103) (d 1) 8].
Definition mixed_ops : list xop :=
  mixed_book ++
  [ XUpdate (half_of_all 2);                 (* both orders in part: long 0.5 *)
    XCall (OpMarket Buy (d 1) 9);
    XCheck (all_sells 120 3);                (* the rest of the sell order; market untouched *)
    XCall (OpLimit Sell (d 130) 5000 10);
    XUpdate (all_sells 125 4);
    XUpdate (all_sells 40 5) ].              (* liquidation *)
