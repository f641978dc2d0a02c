(** Looking at an execution through a lens: user order ids renamed, times changed, money added to the wallet. *)
From Verif Require Import Base Types Accounting Position OrderMargin MarketUpdate Exchange Untracked Spec.

Record lens := {
  l_uid : Z -> Z;     (* renaming of user order ids *)
  l_time : Z -> Z;    (* change of timestamps *)
  l_gift : Z          (* money added to the wallet, taken from the treasury *)
}.

Section See.
Variable l : lens.

Definition see_order (o : limit_order) : limit_order :=
  {| lo_uid := l_uid l (lo_uid o); lo_side := lo_side o; lo_price := lo_price o; lo_rem := lo_rem o;
     lo_id := lo_id o; lo_ts := l_time l (lo_ts o); lo_filled := lo_filled o |}.
Definition see_filled (o : filled_limit) : filled_limit :=
  {| fl_uid := l_uid l (fl_uid o); fl_side := fl_side o; fl_price := fl_price o; fl_rem := fl_rem o; fl_id := fl_id o;
     fl_ts := l_time l (fl_ts o); fl_exec_ts := l_time l (fl_exec_ts o); fl_avg := fl_avg o; fl_qty := fl_qty o |}.
Definition see_market_as (uid : Z) (o : filled_market) : filled_market :=
  {| fm_uid := uid; fm_side := fm_side o; fm_qty := fm_qty o; fm_id := fm_id o;
     fm_ts := l_time l (fm_ts o); fm_exec_ts := l_time l (fm_exec_ts o); fm_avg := fm_avg o; fm_filled := fm_filled o |}.
Definition see_market (o : filled_market) : filled_market := see_market_as (l_uid l (fm_uid o)) o.
Definition see_update (u : order_update) : order_update :=
  match u with PartiallyFilled o => PartiallyFilled (see_order o) | FullyFilled o => FullyFilled (see_filled o) end.

Definition see_trade (t : trade) : trade :=
  {| tr_price := tr_price t; tr_qty := tr_qty t; tr_side := tr_side t; tr_ts := l_time l (tr_ts t) |}.
Definition see_bba (b : bba) : bba := {| bb_bid := bb_bid b; bb_ask := bb_ask b; bb_ts := l_time l (bb_ts b) |}.
Definition see_candle (k : candle) : candle :=
  {| cd_bid := cd_bid k; cd_ask := cd_ask k; cd_low := cd_low k; cd_high := cd_high k; cd_ts := l_time l (cd_ts k) |}.
Definition see_raw (r : raw_update) : raw_update :=
  match r with
  | RBba b => RBba (see_bba b)
  | RTrade t => RTrade (see_trade t)
  | RCandle k => RCandle (see_candle k)
  | RSmart ts b f => RSmart (map see_trade ts) (see_bba b) f
  end.

Definition see_op (o : op) : op :=
  match o with
  | OpUpdate r => OpUpdate (see_raw r)
  | OpMarket sd q uid => OpMarket sd q (l_uid l uid)
  | OpLimit sd p q uid => OpLimit sd p q (l_uid l uid)
  | OpCancel (ByOrderId id) => OpCancel (ByOrderId id)
  | OpCancel (ByUserOrderId uid) => OpCancel (ByUserOrderId (l_uid l uid))
  | OpAmend id sd p q uid => OpAmend id sd p q (l_uid l uid)
  | OpCheck r => OpCheck (see_raw r)
  end.
Definition see_out (o : out) : out :=
  match o with
  | OutUpdates us => OutUpdates (map see_update us)
  | OutMarket m => OutMarket (see_market m)
  | OutLimit o => OutLimit (see_order o)
  | OutUnit => OutUnit
  end.
Definition see_result {A B} (g : A -> B) (r : result error A) : result error B :=
  match r with Ok a => Ok (g a) | Err e => Err e end.

Definition see_ms (m : market_state) : market_state :=
  {| ms_bid := ms_bid m; ms_ask := ms_ask m; ms_ts := l_time l (ms_ts m); ms_step := ms_step m |}.
(** The gift as a transfer from the treasury to the wallet. *)
Definition see_acc (a : accounts) : accounts :=
  {| ac_wallet := post_debit (ac_wallet a) (l_gift l); ac_om := ac_om a; ac_pm := ac_pm a; ac_fee := ac_fee a;
     ac_broker := ac_broker a; ac_treasury := post_credit (ac_treasury a) (l_gift l) |}.

(** The parts of the state that concern trading (not the tracker and not its sampling trigger). *)
Definition seen (e e' : exchange) : Prop :=
  ex_ms e' = see_ms (ex_ms e) /\ ex_next_id e' = ex_next_id e /\ ex_acc e' = see_acc (ex_acc e) /\
  ex_pos e' = ex_pos e /\ ex_active e' = map see_order (ex_active e) /\ ex_om e' = map see_order (ex_om e) /\
  ex_updates e' = map see_update (ex_updates e).
End See.

(** Only more money. *)
Definition richer (k : Z) : lens := {| l_uid := fun u => u; l_time := fun t => t; l_gift := k |}.
Definition richer_config (k : Z) (c : config) : config :=
  {| c_kind := c_kind c; c_scale := c_scale c; c_dbg := c_dbg c; c_start := c_start c + k; c_max := c_max c;
     c_spec := c_spec c; c_sample_s := c_sample_s c |}.
(** Only other user order ids. *)
Definition renamed (f : Z -> Z) : lens := {| l_uid := f; l_time := fun t => t; l_gift := 0 |}.
(** All times forgotten. *)
Definition timeless : lens := {| l_uid := fun u => u; l_time := fun _ => 0; l_gift := 0 |}.

(** The answer of a call for which the wallet was too small. *)
Definition refused (r : result error out) : Prop := r = Err (ERisk NotEnoughAvailableBalance).
(** Panics that a larger wallet can avoid. *)
Definition saved : list panic_site := [PWalletNegative; PLiquidateSubmit].

(** Equal except for the size of the wallet (and of the treasury it came from). *)
Definition more_money (k : Z) (e e' : exchange) : Prop :=
  ex_ms e' = ex_ms e /\ ex_next_id e' = ex_next_id e /\ ex_pos e' = ex_pos e /\ ex_active e' = ex_active e /\
  ex_om e' = ex_om e /\ ex_updates e' = ex_updates e /\
  (forall i, margin_balance_of (ex_acc e') i =
             margin_balance_of (ex_acc e) i + (match i with WALLET => k | TREASURY => - k | _ => 0 end)).

(** What a history reports, as seen through a lens; a panic is seen as it is. *)
Definition reports (m : outcome (exchange * list (result error out))) : outcome (list (result error out)) :=
  match m with Done (_, rs) => Done rs | Panic w => Panic w end.
Definition see_reports (l : lens) (m : outcome (list (result error out))) : outcome (list (result error out)) :=
  match m with Done rs => Done (map (see_result (see_out l)) rs) | Panic w => Panic w end.

(** The same calls at other times. *)
Definition same_but_times (ops ops' : list op) : Prop := map (see_op timeless) ops = map (see_op timeless) ops'.
Definition same_trading_but_times (e e' : exchange) : Prop :=
  see_ms timeless (ex_ms e) = see_ms timeless (ex_ms e') /\ ex_next_id e = ex_next_id e' /\ ex_acc e = ex_acc e' /\
  ex_pos e = ex_pos e' /\ map (see_order timeless) (ex_active e) = map (see_order timeless) (ex_active e').
