(** A limit order in parts. *)
From Verif Require Import Base Types OrderBook MarketUpdate Exchange Spec SpecRules SpecMarket SpecBatch SpecSlice.

(** Orders of the given quantities at one price. *)
Definition tickets (sd : side) (p uid : Z) (l : list Z) : list ticket := map (fun q => {| t_side := sd; t_price := p; t_qty := q; t_uid := uid |}) l.
(** The quantity of the trades that cross a limit at [p]. *)
Definition crossing_at (sd : side) (p : Z) (ts : list trade) : Z :=
  sumZ (map tr_qty (filter (fun t => match sd, tr_side t with Buy, Sell => tr_price t <? p | Sell, Buy => p <? tr_price t | _, _ => false end) ts)).
(** What parts of the given quantities get when [x] crosses. *)
Definition filled_parts (x : Z) (l : list Z) : Z := sumZ (map (Z.min x) l).
