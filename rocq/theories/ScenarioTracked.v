(** Trackers of one's own. *)
From Verif Require Import Base Types Tracker Exchange Untracked Tracked.

(** Adds up bought and sold quantities. *)
Definition net_bought (n : Z) (ev : event) : outcome Z :=
  match ev with
  | EvTrade Buy _ q => Done (n + q)
  | EvTrade Sell _ q => Done (n - q)
  | _ => Done n
  end.
(** Cannot cope with cancellations. *)
Definition no_cancels (n : Z) (ev : event) : outcome Z :=
  match ev with EvCancelled => Panic PLiquidateNeutral | _ => Done (n + 1) end.
