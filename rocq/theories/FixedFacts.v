(** Statements about machine integers, assembled for the properties. *)
From Verif Require Import Base Types Accounting Exchange Width Fixed SpecFixed FixedProof FixedMono FixedFit.

Lemma play_agrees w c ops : w_play w c ops = Overflow \/ w_play w c ops = Fine (u_play c ops).
Proof.
  unfold w_play, u_play. destruct (r_init w c) as [->| ->]; [left; reflexivity|].
  destruct (init c) as [e0|p]; cbn [cbind bind]; [|right; reflexivity]. apply r_run.
Qed.

Lemma call_agrees w c e o : w_step w c e o = Overflow \/ w_step w c e o = Fine (step c e o).
Proof. apply r_step. Qed.

Lemma play_widens w w' c ops x : w <= w' -> w_play w c ops = Fine x -> w_play w' c ops = Fine x.
Proof.
  intros Hw. unfold w_play. destruct (l_init w w' c Hw) as [E|E]; rewrite E; [discriminate|].
  destruct (w_init w' c) as [[e0|p]|]; cbn [cbind]; try (intros; assumption).
  destruct (l_run w w' c e0 ops Hw) as [E'|E']; rewrite E'; [discriminate | intros; assumption].
Qed.

Lemma play_totals w c ops e outs id :
  0 < w -> w_play w c ops = Fine (Done (e, outs)) ->
  in_range w (ta_debits (get_account (ex_acc e) id)) /\ in_range w (ta_credits (get_account (ex_acc e) id)).
Proof.
  intros Hw. unfold w_play. destruct (w_init w c) as [[e0|]|] eqn:E0; cbn [cbind]; try discriminate.
  intros H. pose proof (g_run w c ops e0 (g_init w c Hw e0 E0) _ H id) as [F1 F2]. cbn [fst] in F1, F2.
  unfold fits in *. apply andb_prop in F1 as [A1 A2]. apply andb_prop in F2 as [B1 B2]. unfold in_range. lia.
Qed.
