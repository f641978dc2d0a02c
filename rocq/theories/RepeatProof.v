(** The same amendment twice. *)
From Coq Require Import Permutation.
From Verif Require Import ProofBase Inv Types OrderBook OrderMargin MarketUpdate Exchange Spec SpecConfig SpecEntry BookProof SoundProof OrderProof HealthProof EntryProof EntryFacts.

Lemma amend_twice c e i sd p q uid e1 n e2 n' o : 0 <= c_max c <= 10000 -> reachable c e -> 0 < p -> 0 < q -> In o (ex_active e) -> lo_id o = i ->
  step c e (OpAmend i sd p q uid) = Done (e1, Ok (OutLimit n)) -> step c e1 (OpAmend (lo_id n) sd p q uid) = Done (e2, Ok (OutLimit n')) ->
  lo_rem n = q - lo_filled_qty o /\ lo_rem n' = q /\ lo_filled_qty n' = 0 /\ lo_side n' = lo_side n /\ lo_price n' = lo_price n /\ In n' (ex_active e2) /\ Permutation (ex_active e1 ++ [n']) (n :: ex_active e2).
Proof.
  intros V R P Q O I S1 S2. pose proof (reach_step _ _ _ _ _ R S1) as R1. destruct (amend_outcome c e i sd p q uid e1 _ o V R P Q O I S1) as (_ & L & E & Pm).
  pose proof (reachable_inv _ _ V R) as Iv. pose proof (inv_ids _ _ Iv o O) as Io.
  assert (N : In n (ex_active e1)).
  { assert (H : In n (o :: ex_active e1)) by (rewrite <- Pm; apply in_or_app; right; left; reflexivity). destruct H as [H|H]; [|exact H]. exfalso. subst o. rewrite E in Io. cbn in Io. lia. }
  destruct (amend_outcome c e1 (lo_id n) sd p q uid e2 _ n V R1 P Q N eq_refl S2) as (_ & L' & E' & Pm').
  assert (Fn : lo_filled_qty n = 0) by (rewrite E; reflexivity).
  split; [rewrite E; cbn; unfold leaves_of; lia|]. split; [rewrite E'; cbn; unfold leaves_of; rewrite Fn; lia|]. split; [rewrite E'; reflexivity|]. split; [rewrite E, E'; reflexivity|]. split; [rewrite E, E'; reflexivity|]. split; [|exact Pm'].
  pose proof (reachable_inv _ _ V R1) as Iv1. pose proof (inv_ids _ _ Iv1 n N) as In1.
  assert (H : In n' (n :: ex_active e2)) by (rewrite <- Pm'; apply in_or_app; right; left; reflexivity). destruct H as [H|H]; [|exact H]. exfalso. rewrite H, E' in In1. cbn in In1. lia.
Qed.
