(** The texts of errors. *)
From Coq Require Import String Ascii.
From Verif Require Import ProofBase Types Position OrderBook MarketUpdate Exchange Printed SpecPrinted PrintedProof Messages SpecMessages.
Open Scope string_scope.

Lemma text_error num p a e p' a' e' : plain num -> error_text num p a e = error_text num p' a' e' <-> gist p a e = gist p' a' e'.
Proof.
  intros P. split.
  - destruct e as [e|e|[e|e| |i| | |]| | | |]; try destruct e; destruct e' as [e'|e'|[e'|e'| |i'| | |]| | | |]; try destruct e';
      cbn [error_text filter_text config_text call_text order_text risk_text gist]; intros H;
      first [reflexivity | discriminate H | (spread H; peel H; subst; reflexivity)].
  - destruct e as [e|e|[e|e| |i| | |]| | | |]; try destruct e; destruct e' as [e'|e'|[e'|e'| |i'| | |]| | | |]; try destruct e';
      cbn [gist]; intros H; first [reflexivity | discriminate H | (injection H as -> ->; reflexivity)].
Qed.
Lemma text_order k num usr o o' : plain num -> plain usr -> print_market_order k num usr o = print_market_order k num usr o' <-> o = o'.
Proof.
  intros P U. split; [|congruence]. destruct o as [u sd q i t x v w], o' as [u' sd' q' i' t' x' v' w'].
  unfold print_market_order, print_meta, show_qty. cbn [fm_uid fm_side fm_qty fm_id fm_ts fm_exec_ts fm_avg fm_filled]. intros H.
  destruct k, sd, sd'; cbn [show_side] in H; spread H; injection H as H;
    (apply cut in H; [destruct H as (E & _ & H) | apply U | apply U | reflexivity | reflexivity]); apply (proj1 U) in E; subst u'; clear U; peel H; congruence.
Qed.
