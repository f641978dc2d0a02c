(** Runs of the example program for particular prices. *)
From Verif Require Import Base Types Accounting Filters Currency Position OrderBook OrderMargin MarketUpdate Exchange Helpers Spec Program SpecProgram ScenarioProgram.

Lemma tenths_low l : forallb (fun p => (0 <? p) && (p <? 100000)) l = true -> low_prices (plateaus l).
Proof.
  intros H p P. unfold plateaus in P. apply in_flat_map in P as (x & X & P). apply repeat_spec in P. subst p.
  rewrite forallb_forall in H. specialize (H x X). apply andb_prop in H as [H1 H2]. apply Z.ltb_lt in H1, H2.
  split; [lia|]. split; [exists x; lia | lia].
Qed.

Lemma flip_crash m dbg : low_prices (plateaus [1120; 1200; 3802]) /\
  fin_of (program m dbg turn_around (plateaus [1120; 1200; 3802])) = Some (Crashed PFlipMargin).
Proof. split; [apply tenths_low; reflexivity | destruct m, dbg; vm_compute; reflexivity]. Qed.
Lemma close_crash m : low_prices (plateaus [1120; 1200; 500]) /\
  fin_of (program m true always_buy (plateaus [1120; 1200; 500])) = Some (Crashed PCloseMarginDebug).
Proof. split; [apply tenths_low; reflexivity | destruct m; vm_compute; reflexivity]. Qed.
Lemma liquidated m : low_prices (plateaus [1120; 1200; 500]) /\
  match fin_of (program m false always_buy (plateaus [1120; 1200; 500])) with
  | Some (Rekt e) => position_quantity (ex_pos e) = 0 /\ wallet_of e < 100000
  | _ => False end.
Proof. split; [apply tenths_low; reflexivity | destruct m; vm_compute; auto]. Qed.
Lemma high_crash m dbg : fin_of (program m dbg always_buy (flat_market 100000 94)) = Some (Crashed PTxAmount).
Proof. destruct m, dbg; vm_compute; reflexivity. Qed.
Lemma high_broke m dbg :
  match fin_of (program m dbg always_sell (flat_market 100000 105)) with
  | Some (NoOrder e) => wallet_of e = 9 /\ ex_pos e <> Neutral
  | _ => False end.
Proof. destruct m, dbg; vm_compute; split; (reflexivity || discriminate). Qed.
Lemma low_broke m dbg : low_prices (plateaus spending) /\
  match fin_of (program m dbg always_sell (plateaus spending)) with
  | Some (NoOrder e) => wallet_of e = 95 /\ ex_pos e <> Neutral
  | _ => False end.
Proof. split; [apply tenths_low; reflexivity | destruct m, dbg; vm_compute; split; (reflexivity || discriminate)]. Qed.
