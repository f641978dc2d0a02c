(** Characterisations of the model's functions used by all later proofs. *)
From Coq Require Import Permutation.
From Verif Require Import ProofBase BookLemmas.

(** ** Sequences of transfers *)
Inductive tpath : accounts -> accounts -> Prop :=
| tp_refl a : tpath a a
| tp_step a b d c amt : tpath a b -> 0 < amt -> d <> c -> tpath a (transfer_pure b d c amt).

Lemma tpath_one a d c amt : 0 < amt -> d <> c -> tpath a (transfer_pure a d c amt).
Proof. intros; apply tp_step; [apply tp_refl | assumption..]. Qed.

Lemma tpath_trans a b d : tpath a b -> tpath b d -> tpath a d.
Proof. intros H1 H2; induction H2; [assumption | apply tp_step; auto]. Qed.

Lemma transfer_tpath dbg a d c amt a' : transfer dbg a d c amt = Done a' -> tpath a a'.
Proof. intros H; apply transfer_done in H as (H1 & H2 & ->). apply tpath_one; assumption. Qed.

(** ** Pure parts of position changes *)
Definition margin_of (c : config) (q p : Z) : Z :=
  dmul (c_scale c) (conv (c_kind c) (c_scale c) q p) (ct_imr (c_spec c)).

Definition pnl_pure (k : kind) (s entry exit qty : Z) : Z :=
  match k with
  | Linear => conv k s qty exit - conv k s qty entry
  | Inverse => conv k s qty entry - conv k s qty exit
  end.

Lemma pnl_done k s entry exit qty v : pnl k s entry exit qty = Done v -> v = pnl_pure k s entry exit qty.
Proof.
  unfold pnl, pnl_pure. destruct (Z.eqb_spec qty 0) as [->|].
  - intros H; inv. destruct k; rewrite !conv_0; reflexivity.
  - destruct k; intros H; inv;
    repeat match goal with H : convert_from _ _ _ _ = Done _ |- _ => apply convert_from_done in H; subst end;
    reflexivity.
Qed.

Lemma pnl_ok k s entry exit qty : 0 < entry -> 0 < exit -> pnl k s entry exit qty = Done (pnl_pure k s entry exit qty).
Proof.
  intros. unfold pnl, pnl_pure. destruct (Z.eqb_spec qty 0) as [->|].
  - destruct k; rewrite !conv_0; reflexivity.
  - destruct k; rewrite !convert_from_pos by lia; reflexivity.
Qed.

Definition weighted (s p0 w0 p1 w1 : Z) : Z := Z.quot ((dmul s p0 w0 + dmul s p1 w1) * s) (w0 + w1).

Lemma new_weighted_price_done s p0 w0 p1 w1 v :
  new_weighted_price s p0 w0 p1 w1 = Done v -> v = weighted s p0 w0 p1 w1.
Proof.
  unfold new_weighted_price, ddiv. destruct (w0 + w1 =? 0); intros H; inv; reflexivity.
Qed.

Lemma new_weighted_price_ok s p0 w0 p1 w1 :
  w0 + w1 <> 0 -> new_weighted_price s p0 w0 p1 w1 = Done (weighted s p0 w0 p1 w1).
Proof.
  intros. unfold new_weighted_price, ddiv. destruct (Z.eqb_spec (w0 + w1) 0); [lia|reflexivity].
Qed.

(** Balance shorthand *)
Definition bal (a : accounts) (id : account_id) : Z := margin_balance_of a id.

Ltac tr :=
  repeat match goal with
  | H : transfer _ _ _ _ _ = Done _ |- _ =>
      let H1 := fresh "Hamt" in let H2 := fresh "Hne" in
      apply transfer_done in H as (H1 & H2 & ->)
  | H : convert_from _ _ _ _ = Done _ |- _ => apply convert_from_done in H; subst
  | H : pnl _ _ _ _ _ = Done _ |- _ => apply pnl_done in H; subst
  | H : new_weighted_price _ _ _ _ _ = Done _ |- _ => apply new_weighted_price_done in H; subst
  end.

Lemma inner_new_spec c acc q p f i acc' :
  inner_new c acc q p f = Done (i, acc') ->
  0 < q /\ 0 < p /\ 0 < margin_of c q p /\
  i = {| pi_qty := q; pi_entry := p; pi_fees := f |} /\
  acc' = transfer_pure acc POSITION_MARGIN WALLET (margin_of c q p).
Proof.
  unfold inner_new. intros H; inv. tr. fold (margin_of c q p) in *. repeat split; lia.
Qed.

Lemma increase_spec c pi acc q p f i acc' :
  increase_contracts c pi acc q p f = Done (i, acc') ->
  0 < q /\ 0 < p /\ 0 < margin_of c q p /\
  i = {| pi_qty := pi_qty pi + q;
         pi_entry := weighted (c_scale c) (pi_entry pi) (pi_qty pi) p q;
         pi_fees := pi_fees pi + f |} /\
  acc' = transfer_pure acc POSITION_MARGIN WALLET (margin_of c q p).
Proof.
  unfold increase_contracts. intros H; inv. tr. fold (margin_of c q p) in *. repeat split; lia.
Qed.

(** The accounts after realising [profit], freeing [margin] and paying [due] (if positive). *)
Definition settle_profit (acc : accounts) (profit : Z) : accounts :=
  match profit ?= 0 with
  | Gt => transfer_pure acc WALLET TREASURY profit
  | Lt => transfer_pure acc TREASURY WALLET (Z.abs profit)
  | Eq => acc
  end.
Definition pay_due (acc : accounts) (due : Z) : accounts :=
  if 0 <? due then transfer_pure acc FEE WALLET due else acc.
Definition settle_acc (acc : accounts) (profit margin due : Z) : accounts :=
  pay_due (transfer_pure (settle_profit acc profit) WALLET POSITION_MARGIN margin) due.

Definition dir (long : bool) (q : Z) : Z := if long then q else - q.

Lemma decrease_spec c pi acc q p long f i acc' :
  decrease_contracts c pi acc q p long f = Done (i, acc') ->
  0 < q <= pi_qty pi /\ 0 < margin_of c q (pi_entry pi) /\
  i = {| pi_qty := pi_qty pi - q; pi_entry := pi_entry pi;
         pi_fees := Z.min (pi_fees pi + f) 0 |} /\
  acc' = settle_acc acc (pnl_pure (c_kind c) (c_scale c) (pi_entry pi) p (dir long q))
           (margin_of c q (pi_entry pi)) (pi_fees pi + f).
Proof.
  unfold decrease_contracts, settle_acc, settle_profit, pay_due. intros H; inv.
  unfold dir. destruct (0 <? pi_fees pi + f) eqn:Ef; inv; tr;
  fold (margin_of c q (pi_entry pi)) in *.
  - split; [lia|]. split; [lia|]. split; [f_equal; lia|].
    destruct (pnl_pure _ _ _ _ _ ?= 0) eqn:E; inv; tr; reflexivity.
  - split; [lia|]. split; [lia|]. split; [f_equal; lia|].
    destruct (pnl_pure _ _ _ _ _ ?= 0) eqn:E; inv; tr; reflexivity.
Qed.

Lemma settle_tpath acc profit margin due : 0 < margin -> tpath acc (settle_acc acc profit margin due).
Proof.
  intros Hm. unfold settle_acc, pay_due.
  assert (H1 : tpath acc (settle_profit acc profit)).
  { unfold settle_profit. destruct (Z.compare_spec profit 0); [apply tp_refl | |];
    (apply tpath_one; [lia | discriminate]). }
  assert (H2 : tpath acc (transfer_pure (settle_profit acc profit) WALLET POSITION_MARGIN margin)).
  { apply tp_step; [assumption | lia | discriminate]. }
  destruct (Z.ltb_spec 0 due); [|exact H2]. apply tp_step; [assumption | lia | discriminate].
Qed.

Lemma bal_settle acc profit margin due id :
  bal (settle_acc acc profit margin due) id
  = bal acc id + match id with
                 | WALLET => profit + margin - Z.max due 0
                 | ORDER_MARGIN => 0
                 | POSITION_MARGIN => - margin
                 | FEE => Z.max due 0
                 | BROKER => 0
                 | TREASURY => - profit
                 end.
Proof.
  unfold settle_acc, pay_due, settle_profit, bal.
  destruct (Z.compare_spec profit 0); destruct (Z.ltb_spec 0 due);
  rewrite ?mbo_transfer by discriminate; destruct id; cbn [delta]; unfold delta; cbn; lia.
Qed.

Lemma bal_transfer a d c amt id :
  d <> c -> bal (transfer_pure a d c amt) id = bal a id + delta id d amt - delta id c amt.
Proof. apply mbo_transfer. Qed.

(** ** Effect of a fill on position and balances, in pure terms *)
Definition pos_ok (p : position) : Prop :=
  match p with Neutral => True | Long i => 0 < pi_qty i | Short i => 0 < pi_qty i end.

Definition mk_pos (sd : side) (i : position_inner) : position :=
  match sd with Buy => Long i | Sell => Short i end.
Definition is_buy (sd : side) : bool := match sd with Buy => true | Sell => false end.

(** Cases of a position change: open, add, partial close, full close, flip. *)
Inductive cp_case (c : config) (acc : accounts) (q p : Z) (sd : side) (f : Z)
  : position -> position -> accounts -> Prop :=
| cp_open :
    0 < q -> 0 < p -> 0 < margin_of c q p ->
    (c_dbg c = true -> bal acc POSITION_MARGIN = 0) ->
    cp_case c acc q p sd f Neutral (mk_pos sd {| pi_qty := q; pi_entry := p; pi_fees := f |})
      (transfer_pure acc POSITION_MARGIN WALLET (margin_of c q p))
| cp_add i :
    0 < q -> 0 < p -> 0 < margin_of c q p ->
    cp_case c acc q p sd f (mk_pos sd i)
      (mk_pos sd {| pi_qty := pi_qty i + q;
                    pi_entry := weighted (c_scale c) (pi_entry i) (pi_qty i) p q;
                    pi_fees := pi_fees i + f |})
      (transfer_pure acc POSITION_MARGIN WALLET (margin_of c q p))
| cp_reduce i :
    0 < q -> q < pi_qty i -> 0 < margin_of c q (pi_entry i) ->
    cp_case c acc q p sd f (mk_pos (side_inverted sd) i)
      (mk_pos (side_inverted sd) {| pi_qty := pi_qty i - q; pi_entry := pi_entry i;
                    pi_fees := Z.min (pi_fees i + f) 0 |})
      (settle_acc acc
         (pnl_pure (c_kind c) (c_scale c) (pi_entry i) p (dir (negb (is_buy sd)) q))
         (margin_of c q (pi_entry i)) (pi_fees i + f))
| cp_close i :
    0 < q -> q = pi_qty i -> 0 < margin_of c q (pi_entry i) ->
    (c_dbg c = true -> bal acc POSITION_MARGIN = margin_of c q (pi_entry i)) ->
    cp_case c acc q p sd f (mk_pos (side_inverted sd) i)
      Neutral
      (settle_acc acc
         (pnl_pure (c_kind c) (c_scale c) (pi_entry i) p (dir (negb (is_buy sd)) q))
         (margin_of c q (pi_entry i)) (pi_fees i + f))
| cp_flip i :
    0 < pi_qty i -> pi_qty i < q -> 0 < p -> 0 < margin_of c (pi_qty i) (pi_entry i) ->
    0 < margin_of c (q - pi_qty i) p ->
    bal acc POSITION_MARGIN = margin_of c (pi_qty i) (pi_entry i) ->
    cp_case c acc q p sd f (mk_pos (side_inverted sd) i)
      (mk_pos sd {| pi_qty := q - pi_qty i; pi_entry := p; pi_fees := 0 |})
      (transfer_pure
        (settle_acc acc
         (pnl_pure (c_kind c) (c_scale c) (pi_entry i) p (dir (negb (is_buy sd)) (pi_qty i)))
         (margin_of c (pi_qty i) (pi_entry i)) (pi_fees i + f))
        POSITION_MARGIN WALLET (margin_of c (q - pi_qty i) p)).

Ltac cp_specs :=
  repeat match goal with
  | H : inner_new _ _ _ _ _ = Done (_, _) |- _ => apply inner_new_spec in H as (? & ? & ? & -> & ->)
  | H : increase_contracts _ _ _ _ _ _ = Done (_, _) |- _ => apply increase_spec in H as (? & ? & ? & -> & ->)
  | H : decrease_contracts _ _ _ _ _ _ _ = Done (_, _) |- _ => apply decrease_spec in H as (? & ? & -> & ->)
  end.

Lemma change_position_cases c pos acc q p sd f pos' acc' :
  change_position c pos acc q p sd f = Done (pos', acc') -> cp_case c acc q p sd f pos pos' acc'.
Proof.
  unfold change_position. fold (bal acc POSITION_MARGIN).
  intros H. apply bind_done in H as [u [_ H]]. destruct pos as [|i|i].
  - inv. cp_specs.
    assert (Hm : c_dbg c = true -> bal acc POSITION_MARGIN = 0)
      by (intros E; match goal with H : c_dbg c = true -> _ |- _ => specialize (H E); lia end).
    destruct sd; inv; [apply (cp_open c acc q p Buy f) | apply (cp_open c acc q p Sell f)]; assumption.
  - destruct sd.
    + inv. cp_specs. apply (cp_add c acc q p Buy f i); assumption.
    + destruct (Z.compare_spec q (pi_qty i)) as [He|Hlt|Hgt]; inv; cp_specs;
        repeat match goal with H : context [margin_balance_of ?a POSITION_MARGIN] |- _ =>
          fold (bal a POSITION_MARGIN) in H; rewrite bal_settle in H end.
      * apply (cp_close c acc _ p Sell f i); [lia | reflexivity | assumption |].
        intros E; match goal with H : c_dbg c = true -> _ |- _ => specialize (H E); lia end.
      * apply (cp_reduce c acc q p Sell f i); [lia | assumption..].
      * apply (cp_flip c acc q p Sell f i); try lia; assumption.
  - destruct sd.
    + destruct (Z.compare_spec q (pi_qty i)) as [He|Hlt|Hgt]; inv; cp_specs;
        repeat match goal with H : context [margin_balance_of ?a POSITION_MARGIN] |- _ =>
          fold (bal a POSITION_MARGIN) in H; rewrite bal_settle in H end.
      * apply (cp_close c acc _ p Buy f i); [lia | reflexivity | assumption |].
        intros E; match goal with H : c_dbg c = true -> _ |- _ => specialize (H E); lia end.
      * apply (cp_reduce c acc q p Buy f i); [lia | assumption..].
      * apply (cp_flip c acc q p Buy f i); try lia; assumption.
    + inv. cp_specs. apply (cp_add c acc q p Sell f i); assumption.
Qed.

Lemma cp_tpath c acc q p sd f pos pos' acc' : cp_case c acc q p sd f pos pos' acc' -> tpath acc acc'.
Proof.
  destruct 1; try (apply tpath_one; [assumption|discriminate]); try (apply settle_tpath; assumption).
  apply tp_step; [apply settle_tpath; assumption | assumption | discriminate].
Qed.

Lemma mk_pos_ok sd i : pos_ok (mk_pos sd i) <-> 0 < pi_qty i.
Proof. destruct sd; cbn; tauto. Qed.

Lemma cp_pos_ok c acc q p sd f pos pos' acc' :
  cp_case c acc q p sd f pos pos' acc' -> pos_ok pos -> pos_ok pos'.
Proof.
  destruct 1; rewrite ?mk_pos_ok; cbn [pi_qty]; intros; try lia. exact I.
Qed.

Lemma cp_om c acc q p sd f pos pos' acc' :
  cp_case c acc q p sd f pos pos' acc' -> bal acc' ORDER_MARGIN = bal acc ORDER_MARGIN.
Proof.
  destruct 1; rewrite ?bal_transfer by discriminate; rewrite ?bal_settle;
  rewrite ?bal_transfer by discriminate; unfold delta; cbn; lia.
Qed.

Definition signed (sd : side) (q : Z) : Z := match sd with Buy => q | Sell => - q end.

Lemma cp_qty c acc q p sd f pos pos' acc' :
  cp_case c acc q p sd f pos pos' acc' ->
  position_quantity pos' = position_quantity pos + signed sd q.
Proof. destruct 1; destruct sd; cbn; lia. Qed.
