(** Properties C17, C18, C19, C20. *)
From Verif Require Import Base Types Accounting Currency Position Exchange Spec SpecBook SpecRules SpecConfig SpecMarket SpecEntry SpecFlow
  Scenario ScenarioPanic ScenarioEntry TradeFacts.

(** C17: an accepted market order is filled completely at the ask (buy) or bid (sell) at the taker rate. The
    resting orders, their margin and the market state stay as they are. *)
Theorem C17_filled_at_quote : forall c e sd q uid e' f,
  valid_config c -> reachable c e -> step c e (OpMarket sd q uid) = Done (e', Ok (OutMarket f)) ->
  f = receipt e sd q uid (taker_price e sd) /\ 0 < taker_price e sd /\
  position_quantity (ex_pos e') = position_quantity (ex_pos e) + signed_by sd q /\
  statement_of e' = apply_fill (c_kind c) (c_scale c) (statement_of e)
    {| f_side := sd; f_qty := q; f_price := taker_price e sd; f_rate := ct_taker (c_spec c) |} /\
  ex_active e' = ex_active e /\ order_margin_of e' = order_margin_of e /\ ex_ms e' = ex_ms e /\ ex_next_id e' = ex_next_id e + 1.
Proof. exact market_filled. Qed.
Print Assumptions C17_filled_at_quote.

(** C17: the reasons for a rejection. *)
Theorem C17_rejected : forall c e sd q uid e' err,
  valid_config c -> reachable c e -> 0 < q -> step c e (OpMarket sd q uid) = Done (e', Err err) ->
  (~ quantity_allowed (ct_qf (c_spec c)) q /\ exists oe, err = EOrder oe /\ In oe quantity_errors) \/
  (quantity_allowed (ct_qf (c_spec c)) q /\ err = ERisk NotEnoughAvailableBalance /\
   (0 < taker_price e sd -> ~ funded c e sd q (taker_price e sd)) /\
   (same_side sd (ex_pos e) = false -> Z.abs (position_quantity (ex_pos e)) < q)).
Proof. exact market_rejected. Qed.
Print Assumptions C17_rejected.

(** C18: an order that opens or adds to a position leaves the taker fee in the wallet. *)
Theorem C18_opening_funded : forall c e sd q uid e' f,
  valid_config c -> reachable c e -> step c e (OpMarket sd q uid) = Done (e', Ok (OutMarket f)) ->
  same_side sd (ex_pos e) = true ->
  wallet_of e' = wallet_of e - margin_at c q (taker_price e sd) /\ taker_fee c q (taker_price e sd) <= wallet_of e'.
Proof. exact opening_funded. Qed.
Print Assumptions C18_opening_funded.

Theorem C18_fee_nonneg : forall c q p,
  0 < c_scale c -> 0 <= ct_taker (c_spec c) -> 0 < p -> 0 <= q -> 0 <= taker_fee c q p.
Proof. exact taker_fee_nonneg. Qed.
Print Assumptions C18_fee_nonneg.

Example C18_case : exists e outs, history (L true) opened_ops e outs /\ same_side Buy (ex_pos e) = true /\
  (exists e' f, step (L true) e (OpMarket Buy (d 5) 1) = Done (e', Ok (OutMarket f)) /\ wallet_of e' = d 495) /\
  exists e' err, step (L true) e (OpMarket Buy (d 11) 1) = Done (e', Err (ERisk err)).
Proof. exact opens. Qed.

(** C18, refuted part: an accepted flip can leave the wallet negative. The check counts neither the loss
    realised by closing the old position nor the fees due. *)
Theorem C18_flip_refuted : forall dbg, exists e outs e' f,
  valid_config (L dbg) /\ history (L dbg) falling_ops e outs /\ 0 <= wallet_of e /\
  step (L dbg) e (OpMarket Sell (d 25) 2) = Done (e', Ok (OutMarket f)) /\ wallet_of e' < 0.
Proof. exact flip_negative. Qed.
Print Assumptions C18_flip_refuted.

(** C19: an order that reduces or closes the position is rejected only for its quantity. *)
Theorem C19_reducing_admitted : forall c e sd q uid e' err,
  valid_config c -> reachable c e -> same_side sd (ex_pos e) = false -> q <= Z.abs (position_quantity (ex_pos e)) ->
  step c e (OpMarket sd q uid) = Done (e', Err err) ->
  exists oe, err = EOrder oe /\ (q <= 0 \/ ~ quantity_allowed (ct_qf (c_spec c)) q).
Proof. exact reducing_admitted. Qed.
Print Assumptions C19_reducing_admitted.

Example C19_case : exists e outs, history (L true) falling_ops e outs /\ same_side Sell (ex_pos e) = false /\
  (exists e' f, step (L true) e (OpMarket Sell (d 9) 2) = Done (e', Ok (OutMarket f)) /\ ex_pos e' = Neutral) /\
  exists e' oe, step (L true) e (OpMarket Sell 1 2) = Done (e', Err (EOrder oe)).
Proof. exact reduces. Qed.

(** C20: the wallet turns negative only by a liquidation or by a market order against the position. *)
Theorem C20_wallet_guarded : forall c e o e' r,
  valid_config c -> 0 <= ct_taker (c_spec c) -> reachable c e -> 0 <= wallet_of e -> step c e o = Done (e', r) -> wallet_of e' < 0 ->
  r = Err (ERisk Liquidate) \/
  exists sd q uid, o = OpMarket sd q uid /\ same_side sd (ex_pos e) = false /\ exists f, r = Ok (OutMarket f).
Proof. exact wallet_guarded. Qed.
Print Assumptions C20_wallet_guarded.

(** C20, refuted: a quote that gaps through the liquidation price makes the wallet negative, and so does a flip
    ([C18_flip_refuted]). *)
Theorem C20_never_negative_refuted : forall dbg, exists e outs e',
  valid_config (geared dbg) /\ history (geared dbg) geared_ops e outs /\ 0 <= wallet_of e /\
  step (geared dbg) e (quote 10 11 2) = Done (e', Err (ERisk Liquidate)) /\ wallet_of e' < 0.
Proof. exact gap_negative. Qed.
Print Assumptions C20_never_negative_refuted.
