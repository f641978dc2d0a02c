(** Calls for the examples of C94. *)
From Verif Require Import Base Types Exchange Spec Scenario ScenarioPanic.

(** One decimal place, leverage 1, and a taker fee of a tenth. *)
Definition penny (dbg : bool) : config :=
  {| c_kind := Linear; c_scale := 10; c_dbg := dbg; c_start := 1000; c_max := 10;
     c_spec := {| ct_imr := 10; ct_mm := 5;
                  ct_pf := {| pf_min := None; pf_max := None; pf_tick := 1; pf_up := 20; pf_down := 0 |};
                  ct_qf := {| qf_min := None; qf_max := None; qf_tick := 1 |};
                  ct_maker := 0; ct_taker := 1 |};
     c_sample_s := 10 |}.

(** A long position of 1.  It is sold at 99 or 102, or added to at 104 or 103. *)
Definition owner : list op := [ quote 100 101 1; OpMarket Buy (d 1) 1 ].
(** A short position of 10 entered at 1.5. *)
Definition debtor : list op := [ raw_quote 15 16 1; OpMarket Sell 100 1 ].
(** A long position of 0.2 entered at 1.4. *)
Definition small_owner : list op := [ raw_quote 12 14 1; OpMarket Buy 2 1 ].
