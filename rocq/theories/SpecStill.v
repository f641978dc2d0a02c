(** Calls of the user while the market stands still. *)
From Verif Require Import Base Types Position MarketUpdate Exchange Spec SpecMarket.

(** Anything but a market update; market orders are for whole contracts. *)
Definition own_call (c : config) (o : op) : Prop :=
  match o with
  | OpMarket _ q _ => (c_scale c | q)
  | OpLimit _ _ _ _ | OpCancel _ | OpAmend _ _ _ _ _ => True
  | OpUpdate _ | OpCheck _ => False
  end.
Definition own_calls (c : config) (ops : list op) : Prop := forall o, In o ops -> own_call c o.

(** The position was entered at the quote of [e0]. *)
Definition at_quote (e0 e : exchange) : Prop :=
  match ex_pos e with
  | Neutral => True
  | Long i => pi_entry i = ms_ask (ex_ms e0)
  | Short i => pi_entry i = ms_bid (ex_ms e0)
  end.
(** Wealth before fees. *)
Definition gross (e : exchange) : Z := wealth_of e + fees_paid e.

(** What an order for [q] contracts at [p] costs at rate [r], and what it costs in pieces. *)
Definition cost (k : kind) (s p r q : Z) : Z := fee k s {| f_side := Buy; f_qty := q; f_price := p; f_rate := r |}.
Definition total (l : list Z) : Z := fold_right Z.add 0 l.
