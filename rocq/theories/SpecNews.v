(** The same news told by different kinds of market updates. *)
From Verif Require Import Base Types OrderBook MarketUpdate Exchange Spec SpecMarket SpecCrash.

(** Both updates bring the same quote, or none, have the same time and fill the same quantity of every order of the book. *)
Definition same_news (ru ru' : raw_update) (book : list limit_order) : Prop :=
  quote_of ru = quote_of ru' /\ time_of ru = time_of ru' /\ forall o, In o book -> touched ru o = touched ru' o.

(** A quote and a trade that a debug build accepts. *)
Definition fit (c : config) (b : bba) (t : trade) : Prop :=
  c_dbg c = true -> quote_valid (ct_pf (c_spec c)) b = true /\ price_valid (ct_pf (c_spec c)) (tr_price t) = true /\ 0 < tr_qty t.

(** A trade at the end of the candle where orders of side [sd] are filled, large enough for each of them. *)
Definition sweeps (k : candle) (sd : side) (book : list limit_order) (t : trade) : Prop :=
  tr_ts t = cd_ts k /\ match sd with Buy => tr_side t = Sell /\ tr_price t = cd_low k | Sell => tr_side t = Buy /\ tr_price t = cd_high k end /\
  forall o, In o book -> lo_side o = sd /\ lo_rem o <= tr_qty t.

(** The trades lie within the candle, and of every order within the candle they take at least what remains. *)
Definition covers (k : candle) (l : list trade) (book : list limit_order) : Prop :=
  (forall t, In t l -> cd_low k <= tr_price t <= cd_high k) /\
  forall o, In o book -> beyond o (match lo_side o with Buy => cd_low k | Sell => cd_high k end) = true -> lo_rem o <= crossing_qty o l.

(** The quote in a candle. *)
Definition quote_in (k : candle) (ts : Z) : bba := {| bb_bid := cd_bid k; bb_ask := cd_ask k; bb_ts := ts |}.
