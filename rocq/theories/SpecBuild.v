(** Independent definitions for comparing runs: build modes and tracker states. *)
From Verif Require Import Base Types Tracker Exchange.

(** The same configuration compiled without debug assertions. *)
Definition release (c : config) : config :=
  {| c_kind := c_kind c; c_scale := c_scale c; c_dbg := false; c_start := c_start c; c_max := c_max c;
     c_spec := c_spec c; c_sample_s := c_sample_s c |}.

(** The assertions of the code that exist in debug builds only. *)
Definition debug_only : list panic_site :=
  [PAccountingEquation; PFillQtyPosDebug; PNeutralMarginDebug; PCloseMarginDebug; PDecQtyNegDebug; PMarginToFreeDebug;
   PImrDebug; PTradeQtyDebug; PTradeRemDebug; PCandleRemDebug; PSmartNoValidDebug; PSmartQtyDebug; PInvalidUpdateDebug;
   PBooksDebug; PFilledQtyDebug; PFillMarginDebug; PFillRemDebug; PFillMarginGrowsDebug; PIdsCapacityDebug;
   PEmptyMarginDebug; PEndMarginDebug].
(** A debug build stops at such an assertion, or by a division by zero while evaluating its condition. *)
Definition debug_stop (p : panic_site) : Prop := In p debug_only \/ p = PDivByZero.

(** Equal in every field but the tracker. *)
Definition same_trading (e e' : exchange) : Prop :=
  ex_ms e' = ex_ms e /\ ex_next_id e' = ex_next_id e /\ ex_acc e' = ex_acc e /\ ex_pos e' = ex_pos e /\
  ex_active e' = ex_active e /\ ex_om e' = ex_om e /\ ex_trig e' = ex_trig e /\ ex_updates e' = ex_updates e.

(** Both end with the same panic, or both return related states and equal results. *)
Definition same_outcome {A} (m m' : outcome (exchange * A)) : Prop :=
  match m, m' with
  | Done (e, a), Done (e', a') => same_trading e e' /\ a' = a
  | Panic p, Panic p' => p' = p
  | _, _ => False
  end.
