(** Market data of which nothing comes. *)
From Verif Require Import Base Types Accounting Position OrderBook OrderMargin MarketUpdate Tracker Exchange Spec SpecMarket SpecMachine SpecCrash.

(** Accepted, and nothing to report. *)
Definition nothing (r : result error out) : Prop := r = Ok (OutUpdates []).
(** The next update [ru] replaces all that the updates before it have left: it has a quote, or they had none. *)
Definition replaces (ru : raw_update) (us : list raw_update) : Prop :=
  quote_of ru <> None \/ forall u, In u us -> quote_of u = None.

(** The counters and volumes of the account tracker. *)
Definition counts (t : tracker) : list Z :=
  [tk_sub_limit t; tk_cancelled t; tk_fill_events t; tk_fully_filled t; tk_sub_market t; tk_filled_market t; tk_buy_volume t; tk_sell_volume t].
