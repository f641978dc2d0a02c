(** Cases for C97. *)
From Coq Require Import String.
From Verif Require Import ProofBase Types Position OrderBook MarketUpdate Exchange Printed SpecPrinted PrintedProof.
Open Scope string_scope.

Lemma int_plain : plain show_int.
Proof. split; [exact int_inj | exact int_solid]. Qed.
Lemma left_out num k : exists u u' p p' i i',
  print_update k num (UBba u) = print_update k num (UBba u') /\ bb_ts u <> bb_ts u' /\
  print_position k num p = print_position k num p' /\ position_outstanding_fees p <> position_outstanding_fees p' /\
  print_inner k num i = print_inner k num i' /\ pi_entry i <> pi_entry i'.
Proof.
  exists {| bb_bid := 10; bb_ask := 11; bb_ts := 1 |}, {| bb_bid := 10; bb_ask := 11; bb_ts := 2 |},
    (Long {| pi_qty := 1; pi_entry := 10; pi_fees := 0 |}), (Long {| pi_qty := 1; pi_entry := 10; pi_fees := 3 |}),
    {| pi_qty := 1; pi_entry := 10; pi_fees := 0 |}, {| pi_qty := 1; pi_entry := 20; pi_fees := 0 |}.
  repeat split; cbn; discriminate.
Qed.
