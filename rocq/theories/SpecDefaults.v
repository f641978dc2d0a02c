(** What the default contract specification is meant to be. *)
From Verif Require Import Base Types.

(** Leverage 1, half of the initial margin as maintenance margin, fees of 0.02 % and 0.06 %, prices up to twice the mid
    price and prices and quantities in whole numbers. *)
Definition meant (s : Z) (ct : contract) : Prop :=
  ct_imr ct = s /\ 2 * ct_mm ct = s /\ 10000 * ct_maker ct = 2 * s /\ 10000 * ct_taker ct = 6 * s /\
  ct_pf ct = {| pf_min := None; pf_max := None; pf_tick := s; pf_up := 2 * s; pf_down := 0 |} /\
  ct_qf ct = {| qf_min := None; qf_max := None; qf_tick := s |}.
(** The same without fees. *)
Definition meant_free (s : Z) (ct : contract) : Prop :=
  ct_imr ct = s /\ 2 * ct_mm ct = s /\ ct_maker ct = 0 /\ ct_taker ct = 0 /\
  ct_pf ct = {| pf_min := None; pf_max := None; pf_tick := s; pf_up := 2 * s; pf_down := 0 |} /\
  ct_qf ct = {| qf_min := None; qf_max := None; qf_tick := s |}.
Definition whole (s v : Z) : Prop := (s | v).
