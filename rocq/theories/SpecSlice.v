(** A market order in parts. *)
From Verif Require Import Base Types Position Exchange Spec SpecRules SpecMarket.

(** The same side several times at the market. *)
Definition slices (sd : side) (uid : Z) (l : list Z) : list op := map (fun q => OpMarket sd q uid) l.
Definition all_ok (outs : list (result error out)) : Prop := forall r, In r outs -> exists o, r = Ok o.
(** One unit of the last decimal place for every part after the first. *)
Definition extra (l : list Z) : Z := Z.of_nat (length l) - 1.

Definition due_of (e : exchange) : Z := position_outstanding_fees (ex_pos e).
(** All profits and losses of closing so far, and all fees so far, paid or not. *)
Definition realised (c : config) (e : exchange) : Z := wealth_of e + fees_paid e - c_start c.
Definition charged (e : exchange) : Z := fees_paid e + due_of e.
(** The fee rate of market orders is between nothing and everything. *)
Definition normal_fee (c : config) : Prop := 0 <= ct_taker (c_spec c) <= c_scale c.

(** The quantities are positive and pass the quantity filter. *)
Definition sizes_ok (c : config) (l : list Z) : Prop := forall q, In q l -> 0 < q /\ quantity_allowed (ct_qf (c_spec c)) q.
(** Margin of the parts at a price. *)
Definition margins (c : config) (p : Z) (l : list Z) : Z := sumZ (map (fun q => margin_at c q p) l).
Definition taker_cost (c : config) (q p : Z) : Z := Z.quot (value (c_kind c) (c_scale c) q p * ct_taker (c_spec c)) (c_scale c).
(** Each part finds its margin and its own fee in what the parts before it left. *)
Definition each_funded (c : config) (e : exchange) (p : Z) (l : list Z) : Prop :=
  forall before q after, l = before ++ q :: after -> margins c p (before ++ [q]) + taker_cost c q p <= wallet_of e.
Definition margins_post (c : config) (p : Z) (l : list Z) : Prop := forall q, In q l -> 0 < margin_at c q p.
