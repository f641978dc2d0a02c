(** Property C16. *)
From Coq Require Import Permutation Sorted.
From Verif Require Import Base Types Position OrderBook OrderMargin MarketUpdate Exchange Spec SpecMargin Scenario MarginCor.

(** C16: the computed margin is the specified requirement, for any best-price-first arrangement of the
    orders, when there is no position, or no two orders of a side share a price, or all values are exact
    multiples (no rounding). *)
Theorem C16_margin_is_requirement : forall c g b pos buys sells,
  0 < c_scale c -> ct_imr (c_spec c) <= c_scale c -> good_book b -> sized pos ->
  arranged Buy b buys -> arranged Sell b sells ->
  (pos = Neutral \/ no_ties b \/ exact_book (c_kind c) (c_scale c) g (position_quantity pos) b) ->
  order_margin c b pos
  = Done (requirement (c_kind c) (c_scale c) (ct_imr (c_spec c)) (position_quantity pos) buys sells).
Proof. exact margin_value. Qed.
Print Assumptions C16_margin_is_requirement.

(** C16: without that restriction it is the requirement of one such arrangement. *)
Theorem C16_margin_of_some_arrangement : forall c b pos,
  ct_imr (c_spec c) <= c_scale c -> good_book b -> sized pos ->
  exists buys sells, arranged Buy b buys /\ arranged Sell b sells /\
  order_margin c b pos
  = Done (requirement (c_kind c) (c_scale c) (ct_imr (c_spec c)) (position_quantity pos) buys sells).
Proof. exact margin_some. Qed.
Print Assumptions C16_margin_of_some_arrangement.

(** C16: it does not depend on the order of the book. *)
Theorem C16_order_independent : forall c g b b' pos,
  0 < c_scale c -> ct_imr (c_spec c) <= c_scale c -> good_book b -> sized pos -> Permutation b b' ->
  (pos = Neutral \/ no_ties b \/ exact_book (c_kind c) (c_scale c) g (position_quantity pos) b) ->
  order_margin c b pos = order_margin c b' pos.
Proof. exact margin_perm. Qed.
Print Assumptions C16_order_independent.

(** C16: adding an order never lowers it. *)
Theorem C16_adding_never_lowers : forall c b pos o r r',
  0 < c_scale c -> 0 <= ct_imr (c_spec c) <= c_scale c -> good_book (b ++ [o]) -> sized pos ->
  order_margin c b pos = Done r -> order_margin c (b ++ [o]) pos = Done r' -> 0 <= r <= r'.
Proof. exact margin_add. Qed.
Print Assumptions C16_adding_never_lowers.

(** C16: removing an order never raises it. *)
Theorem C16_removing_never_raises : forall c g b b' o pos r r',
  0 < c_scale c -> 0 <= ct_imr (c_spec c) <= c_scale c -> good_book b -> sized pos -> Permutation b (o :: b') ->
  (pos = Neutral \/ no_ties b \/ exact_book (c_kind c) (c_scale c) g (position_quantity pos) b) ->
  order_margin c b pos = Done r -> order_margin c b' pos = Done r' -> 0 <= r' <= r.
Proof. exact margin_remove. Qed.
Print Assumptions C16_removing_never_raises.

Example C16_nonvacuous :
  good_book c16_book /\ no_ties c16_book /\ sized c16_pos /\
  arranged Buy c16_book [(d 99, d 2)] /\ arranged Sell c16_book [(d 101, d 1); (d 103, d 3)] /\
  requirement Linear S4 S4 (d 2) [(d 99, d 2)] [(d 101, d 1); (d 103, d 3)] = d 206 /\
  order_margin (demo_cfg Linear true) c16_book c16_pos = Done (d 206).
Proof.
  split; [intros o H; repeat (destruct H as [<-|H]; [split; reflexivity|]); destruct H|].
  split; [intros [|]; repeat constructor; cbn; unfold d, S4; lia|].
  split; [reflexivity|].
  split; [split; [apply Permutation_refl | repeat constructor]|].
  split; [split; [apply Permutation_refl | repeat constructor; cbn; unfold d, S4; lia]|].
  split; vm_compute; reflexivity.
Qed.

(** C16 is false for tied prices that are hedged partly, if values round: the requirement depends on the
    order of entry ... *)
Theorem C16_order_dependence_refuted : exists c b b' pos r r',
  0 < c_scale c /\ 0 <= ct_imr (c_spec c) <= c_scale c /\ good_book b /\ sized pos /\ Permutation b b' /\
  order_margin c b pos = Done r /\ order_margin c b' pos = Done r' /\ r <> r'.
Proof.
  exists (tiny Linear true), [simple_order 1 Sell 5 3; simple_order 2 Sell 5 1],
    [simple_order 2 Sell 5 1; simple_order 1 Sell 5 3], (Long {| pi_qty := 2; pi_entry := 5; pi_fees := 0 |}), 0, 1.
  split; [reflexivity|]. split; [vm_compute; split; discriminate|].
  split; [intros o H; repeat (destruct H as [<-|H]; [split; reflexivity|]); destruct H|].
  split; [reflexivity|]. split; [apply perm_swap|]. vm_compute. repeat split; discriminate.
Qed.
Print Assumptions C16_order_dependence_refuted.

(** ... and cancelling an order can raise it, which panics in every build. *)
Theorem C16_removal_raises_refuted : forall dbg, exists e outs,
  history (tiny Linear dbg) tied_ops e outs /\
  order_margin (tiny Linear dbg) (ex_active e) (ex_pos e) = Done 0 /\
  (exists o b', remove_by_order_id (ex_active e) 1 = Some (o, b') /\
     order_margin (tiny Linear dbg) b' (ex_pos e) = Done 1) /\
  step (tiny Linear dbg) e (OpCancel (ByOrderId 1)) = Panic PCancelMarginGrows.
Proof.
  intros dbg. eexists _, _. split; [apply play_history; destruct dbg; vm_compute; reflexivity|].
  destruct dbg; vm_compute; repeat split; eexists _, _; split; reflexivity.
Qed.
Print Assumptions C16_removal_raises_refuted.
