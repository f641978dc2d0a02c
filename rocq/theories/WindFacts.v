(** Histories about leaving the market. *)
From Verif Require Import Base Types Exchange Spec SpecConfig SpecRules SpecMarket SpecPanic Scenario ScenarioPanic SpecWind.

Definition hedged_ops : list op := firstn 3 stale_ops.

Lemma oldest_first_stuck dbg : exists e outs, valid_config (T dbg) /\ history (T dbg) tied_ops e outs /\ in_sync (T dbg) e /\
  everything e (rev (last_first e)) /\ run (T dbg) e (cancels (rev (last_first e))) = Panic PCancelMarginGrows.
Proof.
  destruct (play (T dbg) tied_ops) as [[e outs]|] eqn:E; [|destruct dbg; vm_compute in E; discriminate].
  exists e, outs. split; [apply tiny_valid|]. split; [apply play_history; exact E|].
  destruct dbg; vm_compute in E; injection E as <- <-; (split; [vm_compute; reflexivity|]);
    (split; [unfold everything, last_first; rewrite rev_involutive; apply Permutation.Permutation_refl | vm_compute; reflexivity]).
Qed.
Lemma close_first_stuck dbg : exists e outs, valid_config (L dbg) /\ history (L dbg) hedged_ops e outs /\ in_sync (L dbg) e /\ closable (L dbg) e /\
  run (L dbg) e (closing e 9 ++ cancels (last_first e)) = Panic PCancelMargin.
Proof.
  destruct (play (L dbg) hedged_ops) as [[e outs]|] eqn:E; [|destruct dbg; vm_compute in E; discriminate].
  exists e, outs. split; [apply demo_valid; [cbn; tauto | reflexivity | vm_compute; split; discriminate]|]. split; [apply play_history; exact E|].
  destruct dbg; vm_compute in E; injection E as <- <-; (split; [vm_compute; reflexivity|]);
    (split; [unfold closable; cbv zeta; intros _; split; [unfold quantity_allowed; split; [discriminate|]; split; [intros (x & H & _); discriminate|]; split; [intros (x & H & _); discriminate|]; exists 10; reflexivity|split; [reflexivity|split; [reflexivity|reflexivity]]] | vm_compute; reflexivity]).
Qed.
Lemma left_margin : exists e outs e' outs', valid_config (T false) /\ history (T false) truncated_ops e outs /\ in_sync (T false) e /\ closable (T false) e /\
  run (T false) e (cancels (last_first e) ++ closing e 9) = Done (e', outs') /\ left_market e' /\ position_margin_of e' = 1.
Proof.
  destruct (play (T false) truncated_ops) as [[e outs]|] eqn:E; [|vm_compute in E; discriminate].
  exists e, outs. do 2 eexists. split; [apply tiny_valid|]. split; [apply play_history; exact E|].
  vm_compute in E; injection E as <- <-. split; [vm_compute; reflexivity|].
  split; [unfold closable; cbv zeta; intros _; split; [unfold quantity_allowed; split; [discriminate|]; split; [intros (x & H & _); discriminate|]; split; [intros (x & H & _); discriminate|]; exists 6; reflexivity|split; [reflexivity|split; [reflexivity|discriminate]]]|].
  split; [vm_compute; reflexivity|]. split; [repeat split|]. reflexivity.
Qed.
