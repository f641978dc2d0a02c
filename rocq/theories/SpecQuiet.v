(** Comparing the exchange with and without account tracking. *)
From Verif Require Import Base Types Exchange Untracked.

(** The state without its tracker. *)
Definition erase (e : exchange) : quiet :=
  {| qx_ms := ex_ms e; qx_next_id := ex_next_id e; qx_acc := ex_acc e; qx_pos := ex_pos e; qx_active := ex_active e;
     qx_om := ex_om e; qx_trig := ex_trig e; qx_updates := ex_updates e |}.
(** The same outcome with every state stripped of its tracker. *)
Definition erased {A} (m : outcome (exchange * A)) : outcome (quiet * A) :=
  match m with Done (e, a) => Done (erase e, a) | Panic p => Panic p end.
