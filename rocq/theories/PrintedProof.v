(** The printed texts. *)
From Coq Require Import String Ascii DecimalString DecimalZ Decimal.
From Verif Require Import ProofBase Types Position OrderBook MarketUpdate Exchange Printed SpecPrinted.
Open Scope string_scope.

Lemma sapp_assoc a b c : (a ++ b) ++ c = a ++ (b ++ c).
Proof. induction a as [|x a IH]; [reflexivity|]. cbn [append]. rewrite IH. reflexivity. Qed.
Lemma cut a b c d r s : solid a -> solid b -> separator c = true -> separator d = true -> a ++ String c r = b ++ String d s -> a = b /\ c = d /\ r = s.
Proof.
  revert b. induction a as [|x a IH]; intros [|y b] A B C D H; cbn [append solid] in *.
  - injection H as -> ->. auto.
  - injection H as -> _. destruct B as [B _]. congruence.
  - injection H as -> _. destruct A as [A _]. congruence.
  - injection H as -> H. destruct A as [_ A], B as [_ B]. destruct (IH b A B C D H) as (-> & -> & ->). auto.
Qed.

(** Integers. *)
Lemma uint_solid u : solid (NilEmpty.string_of_uint u).
Proof. induction u; cbn; auto. Qed.
Lemma int_solid z : solid (show_int z).
Proof. unfold show_int. destruct (Z.to_int z); cbn [NilEmpty.string_of_int]; [apply uint_solid|]. cbn [solid]. split; [reflexivity | apply uint_solid]. Qed.
Lemma int_inj x y : show_int x = show_int y -> x = y.
Proof.
  intros H. apply (f_equal NilEmpty.int_of_string) in H. unfold show_int in H. rewrite !NilEmpty.isi in H.
  injection H as H. apply (f_equal Z.of_int) in H. rewrite !DecimalZ.of_to in H. exact H.
Qed.

(** Texts are compared piece by piece. *)
Ltac spread H := unfold show_quote, show_base in H; repeat rewrite sapp_assoc in H; cbn [append] in H.
Ltac solids := first [assumption | apply int_solid | match goal with P : plain ?num |- solid (?num _) => apply P end | (cbn; repeat split)].
Ltac number H := first [apply int_inj in H | match goal with P : plain ?num |- _ => apply (proj1 P) in H end].
Ltac peel H :=
  first
  [ discriminate H
  | match type of H with
    | String _ _ = String _ _ => injection H as H; peel H
    | ?a ++ String _ _ = ?b ++ String _ _ =>
        let A := fresh "A" in let C := fresh "C" in apply cut in H; [destruct H as (A & C & H); try discriminate C; clear C; number A; cbn [append] in H; peel H | solids | solids | reflexivity | reflexivity]
    | show_int _ = show_int _ => apply int_inj in H
    | _ => idtac
    end ].
Ltac whole := intros; let H := fresh "H" in split; [intros H; spread H; peel H; auto | intros H; decompose [and] H; congruence].

Lemma text_bba num b b' : plain num -> print_bba num b = print_bba num b' <-> bb_bid b = bb_bid b' /\ bb_ask b = bb_ask b'.
Proof. unfold print_bba. whole. Qed.
Lemma text_market num m m' : plain num -> print_market num m = print_market num m' <-> m = m'.
Proof. intros P. destruct m as [a b c d], m' as [a' b' c' d']. unfold print_market. cbn [ms_bid ms_ask ms_ts ms_step]. split; [intros H; spread H; peel H; congruence | congruence]. Qed.
Lemma text_update k num u u' : plain num -> print_update k num u = print_update k num u' <-> tells u = tells u'.
Proof.
  intros P. destruct u as [b|t|x|x], u' as [b'|t'|x'|x']; cbn [print_update tells]; unfold print_bba, print_trade, print_candle, print_smart, show_qty;
    (split; [intros H; try (destruct k; destruct (tr_side t), (tr_side t')); cbn [show_side] in H; spread H; peel H; try congruence
            | try discriminate; intros H; injection H; congruence]).
  - f_equal; [apply Nat2Z.inj | apply Nat2Z.inj |]; assumption.
Qed.
Lemma text_inner k num i i' : plain num -> print_inner k num i = print_inner k num i' <-> pi_qty i = pi_qty i' /\ pi_fees i = pi_fees i'.
Proof. intros P. unfold print_inner, show_qty, show_margin. destruct k; whole. Qed.
Lemma text_position k num p p' : plain num -> print_position k num p = print_position k num p' <-> stance_of p = stance_of p'.
Proof.
  intros P. destruct k, p, p'; cbn [print_position stance_of show_qty]; (split; [intros H; spread H; peel H; congruence | try discriminate; try reflexivity; intros H; injection H; congruence]).
Qed.
Lemma text_balances k num b b' : plain num -> print_balances k num b = print_balances k num b' <-> b = b'.
Proof. intros P. destruct b as [x y z], b' as [x' y' z']. unfold print_balances, show_margin. cbn [ub_wallet ub_pm ub_om]. destruct k; (split; [intros H; spread H; peel H; congruence | congruence]). Qed.
Lemma text_pending k num o o' : plain num -> print_pending k num o = print_pending k num o' <-> lo_id o = lo_id o' /\ lo_ts o = lo_ts o' /\ lo_filled o = lo_filled o'.
Proof.
  intros P. unfold print_pending, print_meta. split; [|intros (-> & -> & ->); reflexivity]. intros H.
  destruct (lo_filled o), (lo_filled o'), k; cbn [print_filled_quantity show_qty] in H; spread H; peel H; repeat split; congruence.
Qed.
Lemma text_filled k num o o' : plain num -> print_filled k num o = print_filled k num o' <-> fl_id o = fl_id o' /\ fl_ts o = fl_ts o' /\ fl_exec_ts o = fl_exec_ts o' /\ fl_avg o = fl_avg o' /\ fl_qty o = fl_qty o'.
Proof. intros P. unfold print_filled, print_meta, show_qty. split; [|intros (-> & -> & -> & -> & ->); reflexivity]. intros H. destruct k; spread H; peel H; auto. Qed.
Lemma price_cut num a b r s : plain num -> print_price num a ++ String "," r = print_price num b ++ String "," s -> a = b /\ r = s.
Proof.
  intros P H. destruct a as [x|], b as [y|]; cbn [print_price] in H; unfold show_quote in H; rewrite ?sapp_assoc in H.
  - cbn [append] in H. peel H. subst. split; congruence.
  - change (" Quote" ++ String "," r) with (String " " ("Quote" ++ String "," r)) in H. apply cut in H; [|solids|solids|reflexivity|reflexivity]. destruct H as (_ & C & _). discriminate C.
  - change (" Quote" ++ String "," s) with (String " " ("Quote" ++ String "," s)) in H. apply cut in H; [|solids|solids|reflexivity|reflexivity]. destruct H as (_ & C & _). discriminate C.
  - cbn [append] in H. injection H as H. auto.
Qed.
Lemma text_filter num f f' : plain num -> print_price_filter num f = print_price_filter num f' <-> f = f'.
Proof.
  intros P. destruct f as [a b c d e], f' as [a' b' c' d' e']. unfold print_price_filter. cbn [pf_min pf_max pf_tick pf_up pf_down]. split; [|congruence]. intros H.
  cbn [append] in H. injection H as H. apply price_cut in H; [|exact P]. destruct H as [-> H]. injection H as H. apply price_cut in H; [|exact P]. destruct H as [-> H]. spread H. peel H. congruence.
Qed.
