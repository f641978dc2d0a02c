(** The margin requirement as a function of book and position. *)
From Coq Require Import Permutation Sorted.
From Verif Require Import ProofBase BookLemmas StepLemmas Spec SpecMargin MarginProof.

Definition tie_free (c : config) (g : Z) (b : list limit_order) (pos : position) : Prop :=
  pos = Neutral \/ no_ties b \/ exact_book (c_kind c) (c_scale c) g (position_quantity pos) b.

Lemma margin_value c g b pos buys sells :
  0 < c_scale c -> ct_imr (c_spec c) <= c_scale c -> good_book b -> sized pos ->
  arranged Buy b buys -> arranged Sell b sells ->
  (pos = Neutral \/ no_ties b \/ exact_book (c_kind c) (c_scale c) g (position_quantity pos) b) ->
  order_margin c b pos
  = Done (requirement (c_kind c) (c_scale c) (ct_imr (c_spec c)) (position_quantity pos) buys sells).
Proof.
  intros Hs Hi Hb Hp Ha1 Ha2 Hc. rewrite order_margin_internal_eq by (auto; destruct pos; exact Hp || exact I).
  f_equal. eapply req_any; eassumption.
Qed.

Lemma margin_some c b pos :
  ct_imr (c_spec c) <= c_scale c -> good_book b -> sized pos ->
  exists buys sells, arranged Buy b buys /\ arranged Sell b sells /\
  order_margin c b pos
  = Done (requirement (c_kind c) (c_scale c) (ct_imr (c_spec c)) (position_quantity pos) buys sells).
Proof.
  intros Hi Hb Hp. exists (sorted_side Buy b), (sorted_side Sell b).
  split; [apply sorted_arranged|]. split; [apply sorted_arranged|].
  apply order_margin_internal_eq; auto.
Qed.

Lemma margin_perm c g b b' pos :
  0 < c_scale c -> ct_imr (c_spec c) <= c_scale c -> good_book b -> sized pos -> Permutation b b' ->
  (pos = Neutral \/ no_ties b \/ exact_book (c_kind c) (c_scale c) g (position_quantity pos) b) ->
  order_margin c b pos = order_margin c b' pos.
Proof.
  intros Hs Hi Hb Hp Hperm Hc. rewrite !order_margin_internal_eq; auto.
  - f_equal. eapply req_perm; eassumption.
  - eapply good_perm; eassumption.
Qed.

Lemma margin_add c b pos o r r' :
  0 < c_scale c -> 0 <= ct_imr (c_spec c) <= c_scale c -> good_book (b ++ [o]) -> sized pos ->
  order_margin c b pos = Done r -> order_margin c (b ++ [o]) pos = Done r' -> 0 <= r <= r'.
Proof.
  intros Hs Hi Hb Hp. assert (Hb' : good_book b) by (intros x Hx; apply Hb, in_or_app; auto).
  rewrite !order_margin_internal_eq; auto; try (intros; lia).
  intros [= <-] [= <-]. split; [apply req_nonneg; auto; lia | apply req_snoc; auto; lia].
Qed.

Lemma margin_remove c g b b' o pos r r' :
  0 < c_scale c -> 0 <= ct_imr (c_spec c) <= c_scale c -> good_book b -> sized pos -> Permutation b (o :: b') ->
  (pos = Neutral \/ no_ties b \/ exact_book (c_kind c) (c_scale c) g (position_quantity pos) b) ->
  order_margin c b pos = Done r -> order_margin c b' pos = Done r' -> 0 <= r' <= r.
Proof.
  intros Hs Hi Hb Hp Hperm Hc.
  assert (Hb' : good_book b').
  { intros x Hx. apply Hb. eapply Permutation_in; [apply Permutation_sym; eassumption | right; assumption]. }
  rewrite !order_margin_internal_eq; auto; try (intros; lia).
  intros [= <-] [= <-]. split; [apply req_nonneg; auto; lia | eapply req_remove; eauto; lia].
Qed.
