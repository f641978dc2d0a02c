(** Glue for the property about release builds. *)
From Verif Require Import Base Types Accounting Exchange Width Fixed Wrapped Spec SpecFixed SpecWrapped WrapProof.

Lemma balances_survive w c ops e outs :
  0 < w -> c_dbg c = false -> v_play w c ops = Fine (Done (e, outs)) ->
  exists e', u_play c ops = Done (e', outs) /\ same_but_wrapped w e e' /\
    forall id, v_balance w (ex_acc e) id = margin_balance_of (ex_acc e') id.
Proof.
  intros Hw Hd H. destruct (release_balances w Hw c ops e outs Hd H) as (e' & H1 & H2 & H3).
  exists e'. split; [exact H1|]. split; [apply wraps_same; assumption | exact H3].
Qed.
