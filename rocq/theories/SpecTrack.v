(** Independent definitions about the account tracker and the sampling of returns. *)
From Verif Require Import Base Types OrderBook Accounting Currency MarketUpdate Tracker Position Exchange Spec.

(** ** Sampling *)
Definition update_time (r : raw_update) : Z :=
  match r with
  | RBba b => bb_ts b
  | RTrade t => tr_ts t
  | RCandle k => cd_ts k
  | RSmart l _ _ => match rev l with t :: _ => tr_ts t | [] => 0 end
  end.
Definition update_times (ops : list op) : list Z :=
  flat_map (fun o => match o with OpUpdate r => [update_time r] | _ => [] end) ops.

(** Sample instants for the updates at the given times after a sample at [last]: at most one per update. *)
Fixpoint instants_after (interval last : Z) (times : list Z) : list Z :=
  match times with
  | [] => []
  | t :: r => if last + interval <=? t then (last + interval) :: instants_after interval (last + interval) r
              else instants_after interval last r
  end.
Definition instants (interval : Z) (times : list Z) : list Z :=
  match times with [] => [] | t :: r => t :: instants_after interval t r end.
Definition interval_of (c : config) : Z := c_sample_s c * 1000000000.
Definition num_samples (c : config) (ops : list op) : Z := Z.of_nat (length (instants (interval_of c) (update_times ops))).

(** Each time is at most [gap] after the one before, and not before it. *)
Fixpoint close_by (gap prev : Z) (times : list Z) : Prop :=
  match times with [] => True | t :: r => prev <= t <= prev + gap /\ close_by gap t r end.

(** ** Statistics *)
Definition call := (op * result error out)%type.
Definition tally (f : call -> Z) (h : list call) : Z := sumZ (map f h).

Definition well_formed (price qty : Z) : bool := (0 <? price) && (0 <? qty).
(** Limit orders handed to the exchange: every well formed one, and every amend that gets as far as submitting the
    replacement. *)
Definition limit_submitted (h : call) : Z :=
  match h with
  | (OpLimit _ p q _, _) => if well_formed p q then 1 else 0
  | (OpAmend _ _ p q _, r) =>
      if well_formed p q then
        match r with Err EOrderNoLongerActive | Err (EOrderIdNotFound _) | Err EAmendQtyAlreadyFilled => 0 | _ => 1 end
      else 0
  | _ => 0
  end.
(** Limit orders cancelled: successful cancels, and every amend of an active order. *)
Definition limit_cancelled (h : call) : Z :=
  match h with
  | (OpCancel _, Ok _) => 1
  | (OpAmend _ _ p q _, r) =>
      if well_formed p q then match r with Err EOrderNoLongerActive | Err (EOrderIdNotFound _) => 0 | _ => 1 end else 0
  | _ => 0
  end.
(** Fills of limit orders reported, and those that complete the order. *)
Definition limit_fills (h : call) : Z :=
  match h with (OpUpdate _, Ok (OutUpdates l)) => Z.of_nat (length l) | _ => 0 end.
Definition limit_completed (h : call) : Z :=
  match h with
  | (OpUpdate _, Ok (OutUpdates l)) => Z.of_nat (length (filter (fun u => match u with FullyFilled _ => true | _ => false end) l))
  | _ => 0
  end.
(** A liquidation submits and fills a market order. *)
Definition liquidations (h : call) : Z := match h with (OpUpdate _, Err _) => 1 | _ => 0 end.
Definition market_submitted (h : call) : Z :=
  match h with (OpMarket _ q _, _) => if 0 <? q then 1 else 0 | _ => liquidations h end.
Definition market_fills (h : call) : Z :=
  match h with (OpMarket _ _ _, Ok _) => 1 | _ => liquidations h end.
(** Volume of the fills on one side, in margin currency. *)
Definition volume (c : config) (sd : side) (fs : list fill) : Z :=
  sumZ (map (fun f => value (c_kind c) (c_scale c) (f_qty f) (f_price f))
            (filter (fun f => if side_eq_dec (f_side f) sd then true else false) fs)).
(** What the statistics should be after the calls [h] with fills [fs]. *)
Record tallied (c : config) (t : tracker) (h : list call) (fs : list fill) : Prop := {
  ta_sub_limit : tk_sub_limit t = tally limit_submitted h;
  ta_cancelled : tk_cancelled t = tally limit_cancelled h;
  ta_fill_events : tk_fill_events t = tally limit_fills h;
  ta_fully_filled : tk_fully_filled t = tally limit_completed h;
  ta_sub_market : tk_sub_market t = tally market_submitted h;
  ta_filled_market : tk_filled_market t = tally market_fills h;
  ta_buy_volume : tk_buy_volume t = volume c Buy fs;
  ta_sell_volume : tk_sell_volume t = volume c Sell fs
}.

(** Neither the trigger nor the samples change. *)
Definition quiet (e e' : exchange) : Prop := ex_trig e' = ex_trig e /\ tk_samples (ex_trk e') = tk_samples (ex_trk e).
(** The next update at time [t] is due to be sampled; the state after taking the sample. *)
Definition due_sample (e : exchange) (t : Z) : bool :=
  tg_init (ex_trig e) || (tg_last (ex_trig e) + tg_interval (ex_trig e) <=? t).
Definition took_sample (e e' : exchange) (t : Z) : Prop :=
  ex_trig e' = {| tg_interval := tg_interval (ex_trig e);
                  tg_last := if tg_init (ex_trig e) then t else tg_last (ex_trig e) + tg_interval (ex_trig e);
                  tg_init := false |} /\
  tk_samples (ex_trk e') = wealth_of e :: tk_samples (ex_trk e).

(** The statistics grow by the given amounts: submitted, cancelled, fills, completed (limit orders), submitted and
    filled (market orders), volume bought and sold. *)
Definition plus (t t' : tracker) (a b n m s f v w : Z) : Prop :=
  tk_sub_limit t' = tk_sub_limit t + a /\ tk_cancelled t' = tk_cancelled t + b /\ tk_fill_events t' = tk_fill_events t + n /\
  tk_fully_filled t' = tk_fully_filled t + m /\ tk_sub_market t' = tk_sub_market t + s /\ tk_filled_market t' = tk_filled_market t + f /\
  tk_buy_volume t' = tk_buy_volume t + v /\ tk_sell_volume t' = tk_sell_volume t + w.
(** What one call may add. *)
Definition grows (t t' : tracker) : Prop :=
  exists a b n m s f v w, plus t t' a b n m s f v w /\ 0 <= a <= 1 /\ 0 <= b <= 1 /\ 0 <= n /\ 0 <= m <= n /\ 0 <= f <= s /\ s <= 1 /\ 0 <= v /\ 0 <= w.
