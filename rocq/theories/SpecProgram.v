(** What the example program is expected to do. *)
From Verif Require Import Base Types Accounting Filters Currency Position OrderBook OrderMargin MarketUpdate Exchange Spec Program.

(** The account of the example: 10.0 of the base currency, leverage 1, 0.1 price steps, whole contracts, fees of 0.02 % and 0.06 %. *)
Definition example_account (dbg : bool) : config :=
  {| c_kind := Inverse; c_scale := 10000; c_dbg := dbg; c_start := 100000; c_max := 200;
     c_spec := {| ct_imr := 10000; ct_mm := 5000;
                  ct_pf := {| pf_min := None; pf_max := None; pf_tick := 1000; pf_up := 20000; pf_down := 0 |};
                  ct_qf := {| qf_min := None; qf_max := None; qf_tick := 10000 |};
                  ct_maker := 2; ct_taker := 6 |};
     c_sample_s := 3600 |}.

(** The quotes and the market orders among the calls. *)
Definition quotes_of (ops : list op) : list (Z * Z * Z) :=
  flat_map (fun o => match o with OpUpdate (RBba b) => [(bb_bid b, bb_ask b, bb_ts b)] | _ => [] end) ops.
Definition orders_of (ops : list op) : list (side * Z) :=
  flat_map (fun o => match o with OpMarket sd q _ => [(sd, q)] | _ => [] end) ops.
(** Every price with a spread of 0.1, timestamped with its index. *)
Fixpoint quoted (i : Z) (prices : list Z) : list (Z * Z * Z) :=
  match prices with [] => [] | p :: r => (p, p + 1000, i) :: quoted (i + 1) r end.
(** The sides chosen by the coins at the multiples of 100 in [i], [i + 1], ..., [i + n - 1]. *)
Fixpoint chosen (coins : Z -> bool) (i : Z) (n : nat) : list side :=
  match n with
  | O => []
  | S k => (if i mod 100 =? 0 then [if coins i then Sell else Buy] else []) ++ chosen coins (i + 1) k
  end.

(** Prices of up to 9999.9 on the price grid. *)
Definition low_prices (prices : list Z) : Prop := forall p, In p prices -> 0 < p /\ (1000 | p) /\ p + 1000 <= 10000 * 10000.
(** A tenth of a wallet is a whole number of units, rounded towards zero, and buys so many contracts. *)
Definition tenth (wallet : Z) : Z := Z.quot wallet 10.
Definition contracts_for (v p : Z) : Z := Z.quot (v * p) 10000.

(** No resting orders, nothing reserved, whole contracts. *)
Definition plain (e : exchange) : Prop :=
  ex_active e = [] /\ order_margin_of e = 0 /\ (10000 | position_quantity (ex_pos e)).
