(** Statistics and a history with profits and losses. *)
From Coq Require Import QArith Qabs.
From Verif Require Import Base Types Exchange Untracked Tracked Tracker Float FloatStats Figures SpecFigures Scenario ScenarioPanic.
Open Scope Z_scope.

(** Simple statistics to feed the tracker's numbers to; they are not those of the crates.  Returns are relative, deviations those of
    FloatStats.v, the quantile is always the lowest number. *)
Definition lowest (l : list float) : option float :=
  match l with [] => None | x :: r => Some (fold_left (fun a b => if flt b a then b else a) r x) end.
Definition simple : features := {|
  fx_f64 := fun z => round64 (inject_Z z / inject_Z 10000);
  fx_quantiles := true;
  ln_state := option float * option float; ln_new := (None, None);
  ln_update := fun s x => Done (Some x, match fst s with Some p => Some (fsub b32 (fdiv b32 x p) (Fin 1)) | None => None end);
  ln_last := snd;
  dd_state := option (float * float); dd_new := None;
  dd_update := fun s x => Done (Some (match s with
    | None => (x, zero)
    | Some (peak, worst) => let p := if flt peak x then x else peak in let now := fdiv b32 (fsub b32 p x) p in (p, if flt worst now then now else worst) end));
  dd_last := fun s => match s with Some (_, worst) => Some worst | None => None end;
  wf_state := list float; wf_new := [];
  wf_update := fun s x => Done (s ++ [x]);
  wf_last := fun s => match s with [] => None | _ => Some (as_f32 (std_dev s)) end;
  wf_mean := fun s => as_f32 (mean s); wf_variance := fun s => as_f32 (variance s);
  qg_state := list float; qg_new := [];
  qg_add := fun s x => Done (s ++ [x]);
  qg_quantile := fun s _ => lowest s;
  qg_mean := fun s => match s with [] => None | _ => Some (mean s) end |}.

(** A purchase with a profit, one with a loss, one with a smaller profit; balances are sampled every ten seconds. *)
Definition trip (s a b x y : Z) : list op :=
  [ quote a b (s * 1000000000); OpMarket Buy (d 1) s; quote x y ((s + 5) * 1000000000); OpMarket Sell (d 1) (s + 1) ].
Definition trips_ops : list op :=
  trip 1 100 101 120 121 ++ trip 11 120 121 110 111 ++ trip 21 110 111 116 117 ++ trip 31 116 117 112 113 ++ [ quote 112 113 41000000000 ].
(** A tracker after a history. *)
Definition after {A} (F : features) (c : config) (ops : list op) (f : full F -> A) : option A :=
  match q_init c, full_new F (c_start c) with
  | Done e, Done t => match t_run (full_hook F c) c e ops t with Done (t', _) => Some (f t') | Panic _ => None end
  | _, _ => None
  end.
Definition shown (a : float) : option Z :=
  match a with Fin x => Some (Z.div (Qnum x * 1000000) (Zpos (Qden x))) | _ => None end.
(** The price falls by 1 % twice; the user loses 9 %, then wins 2 %. *)
Definition unlucky_ops : list op :=
  [ quote 100 101 1000000000; OpMarket Buy (d 9) 1; quote 91 92 6000000000; OpMarket Sell (d 9) 2;
    quote 99 100 11000000000; OpMarket Buy (d 9) 3; quote 102 103 16000000000; OpMarket Sell (d 9) 4;
    quote 98 99 21000000000 ].
(** A statistic that is no variance. *)
Definition broken : features := {|
  fx_f64 := fx_f64 simple; fx_quantiles := false;
  ln_state := ln_state simple; ln_new := ln_new simple; ln_update := ln_update simple; ln_last := ln_last simple;
  dd_state := dd_state simple; dd_new := dd_new simple; dd_update := dd_update simple; dd_last := dd_last simple;
  wf_state := wf_state simple; wf_new := wf_new simple; wf_update := wf_update simple; wf_last := wf_last simple;
  wf_mean := wf_mean simple; wf_variance := fun _ => NaN;
  qg_state := qg_state simple; qg_new := qg_new simple; qg_add := qg_add simple; qg_quantile := qg_quantile simple; qg_mean := qg_mean simple |}.
