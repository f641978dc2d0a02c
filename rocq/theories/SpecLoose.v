(** Looser limits: the number of open orders and the filters. *)
From Verif Require Import Base Types Filters MarketUpdate Exchange Spec SpecMachine SpecCrash.

(** The same configuration with another number of open orders and other filters. *)
Definition relax (c : config) (max : Z) (pf : price_filter) (qf : quantity_filter) : config :=
  {| c_kind := c_kind c; c_scale := c_scale c; c_dbg := c_dbg c; c_start := c_start c; c_max := max;
     c_spec := {| ct_imr := ct_imr (c_spec c); ct_mm := ct_mm (c_spec c); ct_pf := pf; ct_qf := qf; ct_maker := ct_maker (c_spec c); ct_taker := ct_taker (c_spec c) |};
     c_sample_s := c_sample_s c |}.

(** What passes the old limits passes the new ones: orders, and market data in debug builds. *)
Record looser (c : config) (max : Z) (pf : price_filter) (qf : quantity_filter) : Prop := {
  ls_max : c_max c <= max;
  ls_qty : forall q, quantity_fault (ct_qf (c_spec c)) q = None -> quantity_fault qf q = None;
  ls_price : forall mark p, price_fault (c_scale c) (ct_pf (c_spec c)) mark p = None -> price_fault (c_scale c) pf mark p = None;
  ls_data : c_dbg c = true -> forall p, price_valid (ct_pf (c_spec c)) p = true -> price_valid pf p = true
}.

(** An answer that comes from one of these limits. *)
Definition refused (r : result error out) : bool :=
  match r with
  | Err EMaxNumberOfActiveOrders => true
  | Err (EOrder x) => match x with
      | LimitPriceBelowMultiple | LimitPriceBelowMin | LimitPriceAboveMultiple | LimitPriceAboveMax | InvalidOrderPriceStepSize
      | QuantityTooLow | QuantityTooHigh | InvalidQuantityStepSize => true
      | _ => false end
  | _ => false
  end.

(** Bounds that are dropped or moved outwards and a step that divides the old one. *)
Definition step_of (m : option Z) : Z := match m with Some x => x | None => 0 end.
Definition lower_min (m m' : option Z) : Prop :=
  match m', m with None, _ => True | Some y, Some x => 0 <= y <= x | Some _, None => False end.
Definition higher_max (m m' : option Z) : Prop :=
  match m', m with None, _ => True | Some y, Some x => 0 < x <= y | Some _, None => False end.
Record wider (c : config) (max : Z) (pf : price_filter) (qf : quantity_filter) : Prop := {
  wd_max : c_max c <= max;
  wd_ptick : pf_tick pf <> 0 /\ (pf_tick pf | pf_tick (ct_pf (c_spec c))) /\ (pf_tick pf | step_of (pf_min (ct_pf (c_spec c))) - step_of (pf_min pf));
  wd_pmin : lower_min (pf_min (ct_pf (c_spec c))) (pf_min pf);
  wd_pmax : higher_max (pf_max (ct_pf (c_spec c))) (pf_max pf);
  wd_up : pf_up pf = 0 \/ pf_up pf = pf_up (ct_pf (c_spec c));
  wd_down : pf_down pf = 0 \/ pf_down pf = pf_down (ct_pf (c_spec c));
  wd_qtick : qf_tick qf <> 0 /\ (qf_tick qf | qf_tick (ct_qf (c_spec c))) /\ (qf_tick qf | step_of (qf_min (ct_qf (c_spec c))) - step_of (qf_min qf));
  wd_qmin : lower_min (qf_min (ct_qf (c_spec c))) (qf_min qf);
  wd_qmax : higher_max (qf_max (ct_qf (c_spec c))) (qf_max qf)
}.
