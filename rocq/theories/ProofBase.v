(** Proof infrastructure: inversion of outcomes, arithmetic of scaled decimals. *)
From Coq Require Export ZifyBool Zquot.
From Verif Require Export Base Types Filters Accounting Currency Position OrderBook OrderMargin
  Risk MarketUpdate Tracker Exchange.

Lemma bind_done {A B} (m : outcome A) (k : A -> outcome B) b :
  bind m k = Done b -> exists a, m = Done a /\ k a = Done b.
Proof. destruct m as [a|p]; cbn; intros H; [eauto | discriminate]. Qed.

Lemma assert_done b p u : assert b p = Done u -> b = true.
Proof. unfold assert; destruct b; [reflexivity | discriminate]. Qed.

Lemma debug_assert_done dbg b p u : debug_assert dbg b p = Done u -> dbg = true -> b = true.
Proof. unfold debug_assert; intros H ->; eauto using assert_done. Qed.

Lemma debug_assert_m_done dbg b p u :
  debug_assert_m dbg b p = Done u -> dbg = true -> b = Done true.
Proof.
  unfold debug_assert_m; intros H ->. apply bind_done in H as [v [Hb Ha]].
  apply assert_done in Ha; congruence.
Qed.

Lemma assert_true p : assert true p = Done tt.
Proof. reflexivity. Qed.

Lemma debug_assert_true dbg p : debug_assert dbg true p = Done tt.
Proof. destruct dbg; reflexivity. Qed.

Ltac inv_one :=
  match goal with
  | H : Done _ = Done _ |- _ => injection H; clear H; intros; subst
  | H : Ok _ = Ok _ |- _ => injection H; clear H; intros; subst
  | H : Err _ = Err _ |- _ => injection H; clear H; intros; subst
  | H : Some _ = Some _ |- _ => injection H; clear H; intros; subst
  | H : (_, _) = (_, _) |- _ => injection H; clear H; intros; subst
  | H : Ok _ = Err _ |- _ => discriminate H
  | H : Err _ = Ok _ |- _ => discriminate H
  | H : Some _ = None |- _ => discriminate H
  | H : None = Some _ |- _ => discriminate H
  | H : Panic _ = Done _ |- _ => discriminate H
  | H : Done _ = Panic _ |- _ => discriminate H
  | H : true = false |- _ => discriminate H
  | H : false = true |- _ => discriminate H
  | H : assert _ _ = Done _ |- _ => apply assert_done in H
  | H : debug_assert _ _ _ = Done _ |- _ =>
      let H' := fresh "Hdbg" in pose proof (debug_assert_done _ _ _ _ H) as H'; clear H
  | H : debug_assert_m _ _ _ = Done _ |- _ =>
      let H' := fresh "Hdbg" in pose proof (debug_assert_m_done _ _ _ _ H) as H'; clear H
  | H : bind _ _ = Done _ |- _ =>
      let a := fresh "a" in let Ha := fresh "Hd" in
      apply bind_done in H as [a [Ha H]]
  | H : (let (_, _) := ?x in _) = Done _ |- _ => is_var x; destruct x
  | H : (match ?x with (_, _) => _ end) = Done _ |- _ => is_var x; destruct x
  end.
Ltac inv := repeat (inv_one; cbn beta iota in * ).

(** ** Scaled decimals *)

Lemma quot_nonneg a b : 0 <= a -> 0 < b -> 0 <= Z.quot a b.
Proof. intros; apply Z.quot_pos; lia. Qed.

Lemma dmul_nonneg s a b : 0 < s -> 0 <= a -> 0 <= b -> 0 <= dmul s a b.
Proof. intros; unfold dmul; apply Z.quot_pos; nia. Qed.

Lemma dmul_mono_l s a a' b : 0 < s -> a <= a' -> 0 <= b -> dmul s a b <= dmul s a' b.
Proof. intros; unfold dmul; apply Z.quot_le_mono; nia. Qed.

Lemma dmul_mono_r s a b b' : 0 < s -> 0 <= a -> b <= b' -> dmul s a b <= dmul s a b'.
Proof. intros; unfold dmul; apply Z.quot_le_mono; nia. Qed.

Lemma dmul_comm s a b : dmul s a b = dmul s b a.
Proof. unfold dmul; f_equal; lia. Qed.

Lemma dmul_opp_l s a b : s <> 0 -> dmul s (- a) b = - dmul s a b.
Proof. intros; unfold dmul. replace (- a * b) with (- (a * b)) by lia. apply Z.quot_opp_l; lia. Qed.

Lemma dmul_scale_r s a : s <> 0 -> dmul s a s = a.
Proof. intros; unfold dmul; apply Z.quot_mul; assumption. Qed.

Lemma dmul_0_l s b : dmul s 0 b = 0.
Proof. unfold dmul; rewrite Z.mul_0_l. apply Zquot_0_l. Qed.

Lemma dmul_0_r s b : dmul s b 0 = 0.
Proof. unfold dmul; rewrite Z.mul_0_r. apply Zquot_0_l. Qed.

Lemma dmul_le s a b : 0 < s -> 0 <= a -> 0 <= b <= s -> dmul s a b <= a.
Proof.
  intros. rewrite <- (dmul_scale_r s a) at 2 by lia. apply dmul_mono_r; lia.
Qed.

(** Pure conversion: the value of [q] contracts at [p]. *)
Definition conv (k : kind) (s q p : Z) : Z :=
  match k with Linear => Z.quot (q * p) s | Inverse => Z.quot (q * s) p end.

Lemma convert_from_done k s q p v : convert_from k s q p = Done v -> v = conv k s q p.
Proof.
  destruct k; cbn; unfold dmul, ddiv; intros H; inv; [reflexivity|].
  destruct (p =? 0); inv; reflexivity.
Qed.

Lemma convert_from_pos k s q p : p <> 0 -> convert_from k s q p = Done (conv k s q p).
Proof.
  intros; destruct k; cbn; [reflexivity|]. unfold ddiv.
  destruct (Z.eqb_spec p 0); [lia | reflexivity].
Qed.

Lemma conv_nonneg k s q p : 0 < s -> 0 <= q -> 0 < p -> 0 <= conv k s q p.
Proof. intros; destruct k; cbn; apply Z.quot_pos; nia. Qed.

Lemma conv_opp k s q p : s <> 0 -> p <> 0 -> conv k s (- q) p = - conv k s q p.
Proof.
  intros; destruct k; cbn.
  - replace (- q * p) with (- (q * p)) by lia. apply Z.quot_opp_l; lia.
  - replace (- q * s) with (- (q * s)) by lia. apply Z.quot_opp_l; lia.
Qed.

Lemma conv_0 k s p : conv k s 0 p = 0.
Proof. destruct k; cbn [conv]; rewrite Z.mul_0_l; apply Zquot_0_l. Qed.

Lemma conv_mono k s q q' p : 0 < s -> 0 < p -> q <= q' -> conv k s q p <= conv k s q' p.
Proof. intros; destruct k; cbn; apply Z.quot_le_mono; nia. Qed.

Lemma umin_min a b : umin a b = Z.min a b.
Proof. unfold umin; destruct (Z.ltb_spec a b); lia. Qed.
Lemma umax_max a b : umax a b = Z.max a b.
Proof. unfold umax; destruct (Z.ltb_spec b a); lia. Qed.

(** ** Transfers *)
Definition transfer_pure (acc : accounts) (d c : account_id) (amt : Z) : accounts :=
  set_account (set_account acc c (post_credit (get_account acc c) amt)) d
    (post_debit (get_account acc d) amt).

Lemma transfer_done dbg acc d c amt acc' :
  transfer dbg acc d c amt = Done acc' -> 0 < amt /\ d <> c /\ acc' = transfer_pure acc d c amt.
Proof.
  unfold transfer, transaction_new, create_margin_transfer, debug_assert_accounting_equation.
  intros H; inv. destruct (account_id_eq_dec d c); [discriminate|].
  cbn [tx_amount tx_debit tx_credit]. repeat split; [lia | assumption].
Qed.

Definition delta (id x : account_id) (amt : Z) : Z := if account_id_eq_dec id x then amt else 0.

Lemma mbo_transfer acc d c amt id :
  d <> c ->
  margin_balance_of (transfer_pure acc d c amt) id
  = margin_balance_of acc id + delta id d amt - delta id c amt.
Proof.
  intros Hd. unfold margin_balance_of, transfer_pure, delta, net_balance, post_debit, post_credit.
  destruct acc, d, c, id; cbn; try lia; contradiction.
Qed.

Lemma transfer_sums acc d c amt :
  d <> c ->
  debit_sum (transfer_pure acc d c amt) = debit_sum acc + amt /\
  credit_sum (transfer_pure acc d c amt) = credit_sum acc + amt.
Proof.
  intros Hd. unfold transfer_pure, debit_sum, credit_sum, post_debit, post_credit.
  destruct acc, d, c; cbn; try lia; contradiction.
Qed.

Lemma transfer_mono acc d c amt id :
  0 < amt ->
  ta_debits (get_account acc id) <= ta_debits (get_account (transfer_pure acc d c amt) id) /\
  ta_credits (get_account acc id) <= ta_credits (get_account (transfer_pure acc d c amt) id).
Proof.
  intros Ha. unfold transfer_pure, post_debit, post_credit.
  destruct acc, d, c, id; cbn; lia.
Qed.

Lemma transfer_ok dbg acc d c amt :
  debit_sum acc = credit_sum acc -> 0 < amt -> d <> c ->
  transfer dbg acc d c amt = Done (transfer_pure acc d c amt).
Proof.
  intros Hs Ha Hd. unfold transfer, transaction_new, create_margin_transfer, debug_assert_accounting_equation.
  destruct (Z.ltb_spec 0 amt); [|lia]. cbn [assert bind].
  destruct (account_id_eq_dec d c); [contradiction|]. cbn [assert bind tx_amount tx_debit tx_credit].
  change (set_account (set_account acc c (post_credit (get_account acc c) amt)) d
            (post_debit (get_account acc d) amt)) with (transfer_pure acc d c amt).
  destruct (transfer_sums acc d c amt Hd) as [-> ->].
  rewrite Hs, Z.eqb_refl, debug_assert_true. reflexivity.
Qed.
