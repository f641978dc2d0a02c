(** What a bundle of trades does to the resting orders, whether delivered one by one or as a candle. *)
From Verif Require Import Base Types OrderBook MarketUpdate Exchange Spec SpecMarket SpecEntry.

(** Id, side, limit price and remaining quantity of an order. *)
Definition stub (o : limit_order) : Z * side * Z * Z := (lo_id o, lo_side o, lo_price o, lo_rem o).
(** The quantity of [o] that the trades take. *)
Definition takes (l : list trade) (o : limit_order) : Z := Z.min (crossing_qty o l) (lo_rem o).
(** What remains of the book. *)
Definition leftover (l : list trade) (book : list limit_order) : list (Z * side * Z * Z) :=
  flat_map (fun o => if takes l o =? lo_rem o then [] else [(lo_id o, lo_side o, lo_price o, lo_rem o - takes l o)]) book.
(** The change of the position. *)
Definition moved (l : list trade) (book : list limit_order) : Z :=
  sumZ (map (fun o => signed_by (lo_side o) (takes l o)) book).
(** Delivering trades one by one. *)
Definition trade_ops (l : list trade) : list op := map (fun t => OpUpdate (RTrade t)) l.
Definition all_accepted (outs : list (result error out)) : Prop := forall r, In r outs -> exists us, r = Ok (OutUpdates us).
