(** Vocabulary of the property that small inputs never overflow. *)
From Verif Require Import Base Types Filters MarketUpdate OrderBook OrderMargin Exchange Spec.

(** [weight * quantity / scale] is at least the value of a quantity at any price between the smallest price and [P]. *)
Definition weight (c : config) (P : Z) : Z :=
  match c_kind c with Linear => P | Inverse => c_scale c * c_scale c end.

(** Quantity ordered by a call, and by a call sequence. *)
Definition ordered (o : op) : Z :=
  match o with OpMarket _ q _ | OpLimit _ _ q _ | OpAmend _ _ _ q _ => Z.max 0 q | _ => 0 end.
Definition volume (ops : list op) : Z := sumZ (map ordered ops).
(** Number of calls that may reserve margin. *)
Definition reserves (o : op) : Z := match o with OpLimit _ _ _ _ | OpAmend _ _ _ _ _ => 1 | _ => 0 end.
Definition submissions (ops : list op) : Z := sumZ (map reserves ops).

(** Prices are between zero and [P], times between [-T] and [T], volumes of a candle add up to less than [L]. *)
Definition price_in (P p : Z) : Prop := 0 <= p <= P.
Definition bba_in (P : Z) (b : bba) : Prop := price_in P (bb_bid b) /\ price_in P (bb_ask b).
Definition feed_in (P T L : Z) (ru : raw_update) : Prop :=
  match ru with
  | RBba b => bba_in P b /\ Z.abs (bb_ts b) <= T
  | RTrade t => price_in P (tr_price t) /\ Z.abs (tr_ts t) <= T
  | RCandle k => price_in P (cd_bid k) /\ price_in P (cd_ask k) /\ price_in P (cd_low k) /\ price_in P (cd_high k) /\
                 Z.abs (cd_ts k) <= T
  | RSmart l b _ => bba_in P b /\ (forall t, In t l -> price_in P (tr_price t) /\ Z.abs (tr_ts t) <= T) /\
                    sumZ (map (fun t => Z.abs (tr_qty t)) l) < L
  end.
Definition call_in (P T L : Z) (o : op) : Prop :=
  match o with
  | OpUpdate ru | OpCheck ru => feed_in P T L ru
  | OpLimit _ p _ _ | OpAmend _ _ p _ _ => p <= P
  | OpMarket _ _ _ | OpCancel _ => True
  end.

Definition at_least_zero (m : option Z) : Prop := match m with Some x => 0 <= x | None => True end.

(** What the configuration must satisfy besides being valid: prices up to [P], a total ordered quantity up to [V],
    times up to [T], integers below [L]. *)
Record config_in (c : config) (P V T L : Z) : Prop := {
  ci_price : 0 < P /\ 2 * P < L;
  ci_scale : 2 * c_scale c < L;
  ci_volume : 0 <= V < L;
  ci_cost : P * V < c_scale c * L;
  ci_maker : Z.abs (ct_maker (c_spec c)) <= c_scale c;
  ci_taker : Z.abs (ct_taker (c_spec c)) <= c_scale c;
  ci_min_price : at_least_zero (pf_min (ct_pf (c_spec c)));
  ci_min_qty : at_least_zero (qf_min (ct_qf (c_spec c)));
  ci_up : P * Z.abs (pf_up (ct_pf (c_spec c))) < c_scale c * L;
  ci_down : P * Z.abs (pf_down (ct_pf (c_spec c))) < c_scale c * L;
  ci_sample : 0 <= T /\ 0 <= c_sample_s c /\ T + c_sample_s c * 1000000000 < 2 ^ 63
}.

(** No account ever holds and no order ever reserves more than [wealth / scale], when [V] is ordered in total. *)
Definition wealth (c : config) (P V : Z) : Z := c_scale c * c_start c + weight c P * (2 * V).
(** The largest ledger total the calls can produce stays below [L]. *)
Definition affordable (c : config) (P V L : Z) (ops : list op) : Prop :=
  c_scale c * c_start c + weight c P * (5 * volume ops) + 2 * submissions ops * wealth c P V < c_scale c * L.

(** A linear future in [i64] with five decimals: at most 1000000 units of money, fee rates up to 100 %, price bands up
    to 1000 times the mid price. *)
Record everyday_config (c : config) : Prop := {
  ed_kind : c_kind c = Linear;
  ed_scale : c_scale c = 100000;
  ed_start : c_start c <= 1000000 * 100000;
  ed_maker : Z.abs (ct_maker (c_spec c)) <= 100000;
  ed_taker : Z.abs (ct_taker (c_spec c)) <= 100000;
  ed_min_price : at_least_zero (pf_min (ct_pf (c_spec c)));
  ed_min_qty : at_least_zero (qf_min (ct_qf (c_spec c)));
  ed_up : Z.abs (pf_up (ct_pf (c_spec c))) <= 1000 * 100000;
  ed_down : Z.abs (pf_down (ct_pf (c_spec c))) <= 1000 * 100000;
  ed_sample : 0 <= c_sample_s c <= 1000000000
}.
(** Prices up to 100000.00000, times up to the year 2096, in total at most 1000 contracts in at most 200000 limit
    orders, and at most 10^15 calls. *)
Definition everyday_calls (ops : list op) : Prop :=
  (forall o, In o ops -> call_in (100000 * 100000) 4000000000000000000 (2 ^ 63) o) /\
  volume ops <= 1000 * 100000 /\ submissions ops <= 200000 /\ Z.of_nat (length ops) <= 1000000000000000.
