(** Configurations the constructors can produce, with at most 10000 open orders. *)
From Verif Require Import Base Types Filters.

Record valid_config (c : config) : Prop := {
  vc_scale : 0 < c_scale c;
  vc_imr : 0 <= ct_imr (c_spec c) <= c_scale c;
  vc_mm : 0 <= ct_mm (c_spec c) <= ct_imr (c_spec c);
  vc_ptick : pf_tick (ct_pf (c_spec c)) <> 0;
  vc_qtick : qf_tick (ct_qf (c_spec c)) <> 0;
  vc_start : 0 < c_start c;
  vc_max : 0 <= c_max c <= 10000
}.
