(** Independent statement of the rules for configurations, filters and market data. *)
From Verif Require Import Base Types MarketUpdate.

Definition above (limit : option Z) (x : Z) : Prop := exists m, limit = Some m /\ m < x.
Definition below (limit : option Z) (x : Z) : Prop := exists m, limit = Some m /\ x < m.
Definition origin (min : option Z) : Z := match min with Some m => m | None => 0 end.

(** Quantities: not zero, within the limits, on the grid that starts at the minimum. *)
Definition quantity_allowed (f : quantity_filter) (q : Z) : Prop :=
  q <> 0 /\ ~ above (qf_max f) q /\ ~ below (qf_min f) q /\ (qf_tick f | q - origin (qf_min f)).

(** Limit prices: positive, within the limits, on the grid, and inside the band around the mark price.
    The band is compared exactly: [p] is above iff [p > mark * up], below iff [p] plus one unit of the
    last decimal place does not exceed [mark * down]. *)
Definition above_band (s : Z) (f : price_filter) (mark p : Z) : Prop :=
  pf_up f <> 0 /\ mark * pf_up f < p * s.
Definition below_band (s : Z) (f : price_filter) (mark p : Z) : Prop :=
  pf_down f <> 0 /\ (p + 1) * s <= mark * pf_down f.
Definition price_static (f : price_filter) (p : Z) : Prop :=
  0 < p /\ ~ above (pf_max f) p /\ ~ below (pf_min f) p /\ (pf_tick f | p - origin (pf_min f)).
Definition price_allowed (s : Z) (f : price_filter) (mark p : Z) : Prop :=
  price_static f p /\ ~ above_band s f mark p /\ ~ below_band s f mark p.

(** Market data: a limit of zero does not restrict. *)
Definition in_limits (f : price_filter) (p : Z) : Prop :=
  (forall m, pf_min f = Some m -> m <> 0 -> m <= p) /\
  (forall m, pf_max f = Some m -> m <> 0 -> p <= m).
Definition data_price (f : price_filter) (p : Z) : Prop := in_limits f p /\ (pf_tick f | p).
Definition data_ok (f : price_filter) (u : market_update) : Prop :=
  match u with
  | UBba b => data_price f (bb_bid b) /\ data_price f (bb_ask b) /\ bb_bid b < bb_ask b
  | UTrade t => data_price f (tr_price t)
  | UCandle k => data_price f (cd_bid k) /\ data_price f (cd_ask k) /\
                 data_price f (cd_low k) /\ data_price f (cd_high k) /\
                 cd_bid k < cd_ask k /\ cd_low k < cd_high k
  | USmart _ => True
  end.
