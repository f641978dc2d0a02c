(** A refused order is what lower fees can make worse. *)
From Verif Require Import Base Types Accounting Position OrderMargin MarketUpdate Exchange Spec SpecConfig SpecMarket SpecView SpecCheap Scenario ScenarioPanic.

Definition dear : config := demo Linear true 1 2 2000 (d 1000) 10.
Definition falling : list op := [quote 100 101 1; OpMarket Buy (d 9) 1; quote 40 41 2].

Lemma refusals_matter :
  ~ (forall c maker taker gift ops e outs e' outs',
       valid_config c -> cheaper maker taker gift c -> history c ops e outs -> history (repriced maker taker gift c) ops e' outs' ->
       wealth_of e <= wealth_of e').
Proof.
  intros H.
  assert (P : match play dear falling, play (repriced 2 6 0 dear) falling with
              | Done (e, _), Done (e', _) => wealth_of e' < wealth_of e
              | _, _ => False
              end) by (vm_compute; reflexivity).
  destruct (play dear falling) as [[e outs]|] eqn:E; [|destruct P]. destruct (play (repriced 2 6 0 dear) falling) as [[e' outs']|] eqn:E'; [|destruct P].
  specialize (H dear 2 6 0 falling e outs e' outs'). pose proof (play_history _ _ _ _ E) as A. pose proof (play_history _ _ _ _ E') as A'.
  assert (V : valid_config dear) by (apply demo_valid; cbn; lia || auto).
  assert (C : cheaper 2 6 0 dear) by (unfold cheaper; cbn; lia). specialize (H V C A A'). lia.
Qed.
