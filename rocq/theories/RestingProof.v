(** Consequences for resting orders. *)
From Coq Require Import Permutation Sorted.
From Verif Require Import ProofBase BookLemmas Spec SpecBook SpecRules Inv FilterProof OrderProof.

Lemma flat_map_in {A B} (f g : A -> list B) l : (forall x y, In y (f x) -> In y (g x)) ->
  forall y, In y (flat_map f l) -> In y (flat_map g l).
Proof. intros H y. rewrite !in_flat_map. intros (x & Hx & Hy). eauto. Qed.

Lemma accepted_issued ops outs a : In a (accepted_orders ops outs) -> In (lo_id a) (issued_ids ops outs).
Proof.
  unfold accepted_orders, issued_ids. rewrite !in_flat_map. intros ((o & r) & Hx & Hy).
  exists (o, r). split; [assumption|]. destruct o, r as [[]|]; cbn in *; try contradiction;
  destruct Hy as [<-|[]]; auto.
Qed.

Lemma ids_unique c ops e outs :
  0 <= c_max c <= 10000 -> history c ops e outs ->
  StronglySorted Z.lt (issued_ids ops outs) /\
  NoDup (map lo_id (ex_active e)) /\
  (forall o, In o (ex_active e) -> In (lo_id o) (issued_ids ops outs)).
Proof.
  intros Hc H. split; [apply (ids_increase c ops e outs Hc H)|].
  split; [apply (inv_nodup _ _ (history_inv _ _ _ _ Hc H))|].
  intros o Ho. destruct (quantity_conserved _ _ _ _ Hc H) as [Hq _].
  destruct (Hq o Ho) as (_ & a & Ha & Hd). destruct Hd as (<- & _). apply accepted_issued; assumption.
Qed.

Lemma quantity_ok_allowed f q : validate_order_quantity f q = Done (Ok tt) -> quantity_allowed f q.
Proof.
  intros H. destruct (Z.eq_dec (qf_tick f) 0) as [E|E].
  - exfalso. unfold validate_order_quantity, drem in H. rewrite E in H.
    destruct (q =? 0); [discriminate|]. destruct (match qf_max f with Some m => _ | None => _ end); [discriminate|].
    destruct (match qf_min f with Some m => q <? m | None => _ end); discriminate.
  - destruct (quantity_filter_exact f q E) as (v & Hv & Hok & _). apply Hok. congruence.
Qed.

Lemma price_ok_static s f p m : validate_limit_price s f p m = Done (Ok tt) -> price_static f p.
Proof.
  intros H. destruct (Z.eq_dec (pf_tick f) 0) as [E|E].
  - exfalso. unfold validate_limit_price, drem in H. rewrite E in H.
    destruct (p <=? 0); [discriminate|]. destruct (match pf_max f with Some m => _ | None => _ end); [discriminate|].
    destruct (match pf_min f with Some m => p <? m | None => _ end); discriminate.
  - rewrite price_verdict in H by assumption. injection H as H. unfold price_static.
    destruct (Z.leb_spec p 0); [discriminate|].
    destruct (match pf_max f with Some m => m <? p | None => false end) eqn:E1; [discriminate|].
    destruct (match pf_min f with Some m => p <? m | None => false end) eqn:E2; [discriminate|].
    destruct (Z.rem (p - origin (pf_min f)) (pf_tick f) =? 0) eqn:E3; [|discriminate].
    rewrite <- above_dec, <- below_dec, E1, E2. apply rem_divide in E3; [|assumption].
    repeat split; try assumption; discriminate.
Qed.

Lemma resting_respects c ops e outs :
  0 <= c_max c <= 10000 -> history c ops e outs ->
  forall o, In o (ex_active e) ->
    quantity_allowed (ct_qf (c_spec c)) (lo_rem o + lo_filled_qty o) /\
    price_static (ct_pf (c_spec c)) (lo_price o).
Proof.
  intros Hc H o Ho. destruct (quantity_conserved _ _ _ _ Hc H) as [Hq _].
  destruct (Hq o Ho) as (_ & a & Ha & Hd). destruct Hd as (_ & _ & _ & Hp & _ & _ & Hr).
  destruct (resting_valid _ _ _ _ Hc H a Ha) as (Hqv & m & Hpv).
  rewrite Hr, <- Hp. eauto using quantity_ok_allowed, price_ok_static.
Qed.
