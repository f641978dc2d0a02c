(** In a build without overflow checks the books balance up to multiples of [2 ^ w]. *)
From Verif Require Import Base Types Filters Accounting Currency Position OrderBook OrderMargin
  Risk MarketUpdate Tracker Exchange Width Fixed FixedFit Wrapped Release Spec SpecWrapped WrapProof.

Definition in_balance (w : Z) (a : accounts) : Prop := 0 < w /\ exists k,
  sumZ (map (fun i => ta_debits (get_account a i)) all_accounts) =
  sumZ (map (fun i => ta_credits (get_account a i)) all_accounts) + k * 2 ^ w.

Lemma i_transfer w dbg a d k amt : in_balance w a -> gives (in_balance w) (rb_transfer w dbg a d k amt).
Proof.
  intros [Hw [n H]]; unfold rb_transfer; cbv zeta.
  apply (g_bind _ (fun t => tx_debit t <> tx_credit t)).
  { unfold transaction_new. destruct (assert (0 <? amt) _); [|apply g_panic]. cbn [bind].
    destruct (account_id_eq_dec d k) as [E|E]; [apply g_panic|]. intros t T. injection T as <-. exact E. }
  intros [d' k' amt'] N; cbn [tx_debit tx_credit tx_amount] in *.
  unfold radd. do 2 (apply g_ret_bind; cbv beta). apply g_any; intros _; apply g_ret. split; [exact Hw|].
  destruct (wrap_spec w Hw (ta_debits (get_account a d') + amt')) as [[x X] _].
  destruct (wrap_spec w Hw (ta_credits (get_account a k') + amt')) as [[y Y] _].
  rewrite X, Y. exists (n + x - y).
  destruct a as [aw ao ap af ab at_]. destruct d', k'; try (destruct N; reflexivity); cbn in *; lia.
Qed.

Create HintDb baldb.
#[local] Hint Constants Opaque : baldb.
#[local] Hint Resolve i_transfer : baldb.

#[local] Hint Extern 1 (in_balance _ _) => assumption : baldb.

Definition snd_bal {A} (w : Z) (x : A * accounts) : Prop := in_balance w (snd x).
Definition ex_bal (w : Z) (e : exchange) : Prop := in_balance w (ex_acc e).
Definition st_bal {A} (w : Z) (x : exchange * A) : Prop := in_balance w (ex_acc (fst x)).
Definition st2_bal {A B} (w : Z) (x : exchange * A * B) : Prop := in_balance w (ex_acc (fst (fst x))).

Ltac gopen := unfold st2_bal, st_bal, snd_bal, ex_bal in * |-; cbn [fst snd] in * |-.
Ltac ggo :=
  match goal with
  | |- gives _ (ret _) => apply g_ret; gopen; unfold st2_bal, st_bal, snd_bal, ex_bal; cbn [fst snd]; assumption
  | |- gives _ (Fine (Panic _)) => apply g_panic
  | |- gives _ (cbind (ret _) _) => apply g_ret_bind; cbv beta
  | |- gives _ (cbind (Fine (Panic _)) _) => apply g_panic_bind
  | |- gives _ (cbind (cbind _ _) _) => apply g_assoc
  | |- gives _ (cbind (match ?x with _ => _ end) _) => destruct x; gopen
  | |- gives _ (cbind _ _) =>
      first [ eapply g_bind; [solve [eauto 3 with baldb] | cbv beta; intros ? ?; gopen] | apply g_any; intros ? ]
  | |- gives _ (match ?x with _ => _ end) => destruct x; gopen
  | |- _ => solve [eauto 3 with baldb]
  end.
Ltac gall := cbv zeta; repeat ggo.

Lemma i_inner_new w c a q p f : in_balance w a -> gives (snd_bal w) (rb_inner_new w c a q p f).
Proof. intros H; unfold rb_inner_new; gall. Qed.
Lemma i_increase w c p a q pr f : in_balance w a -> gives (snd_bal w) (rb_increase_contracts w c p a q pr f).
Proof. intros H; unfold rb_increase_contracts; gall. Qed.
Lemma i_decrease w c p a q pr l f : in_balance w a -> gives (snd_bal w) (rb_decrease_contracts w c p a q pr l f).
Proof. intros H; unfold rb_decrease_contracts; gall. Qed.
#[local] Hint Resolve i_inner_new i_increase i_decrease : baldb.
Lemma i_change w c pos a q p sd f : in_balance w a -> gives (snd_bal w) (rb_change_position w c pos a q p sd f).
Proof. intros H; unfold rb_change_position; gall. Qed.
#[local] Hint Resolve i_change : baldb.
Lemma i_settle w c e o : in_balance w (ex_acc e) -> gives (ex_bal w) (rb_settle_filled_market_order w c e o).
Proof. intros H; unfold rb_settle_filled_market_order; gall. Qed.
#[local] Hint Resolve i_settle : baldb.
Lemma i_market w c e o : in_balance w (ex_acc e) -> gives (st_bal w) (rb_submit_market_order w c e o).
Proof. intros H; unfold rb_submit_market_order; gall. Qed.
#[local] Hint Resolve i_market : baldb.
Lemma i_liquidate w c e : in_balance w (ex_acc e) -> gives (ex_bal w) (rb_liquidate w c e).
Proof. intros H; unfold rb_liquidate; gall. Qed.
Lemma i_append w c e o : in_balance w (ex_acc e) -> gives (st_bal w) (rb_append_limit_order w c e o).
Proof. intros H; unfold rb_append_limit_order; gall. Qed.
#[local] Hint Resolve i_liquidate i_append : baldb.
Lemma i_submit w c e o : in_balance w (ex_acc e) -> gives (st_bal w) (rb_submit_limit_order w c e o).
Proof. intros H; unfold rb_submit_limit_order; gall. Qed.
Lemma i_cancel w c e b : in_balance w (ex_acc e) -> gives (st_bal w) (rb_cancel_limit_order w c e b).
Proof. intros H; unfold rb_cancel_limit_order; destruct b; gall. Qed.
#[local] Hint Resolve i_submit i_cancel : baldb.
Lemma i_amend w c e id o : in_balance w (ex_acc e) -> gives (st_bal w) (rb_amend_limit_order w c e id o).
Proof. intros H; unfold rb_amend_limit_order; gall. Qed.
Lemma i_fill_one w c u e ids o : in_balance w (ex_acc e) -> gives (st2_bal w) (rb_fill_one w c u e ids o).
Proof. intros H; unfold rb_fill_one; gall. Qed.
#[local] Hint Resolve i_amend i_fill_one : baldb.
Lemma i_fill_loop w c u todo : forall e ids, in_balance w (ex_acc e) -> gives (st2_bal w) (rb_fill_loop w c u e ids todo).
Proof. induction todo as [|o todo IH]; intros e ids H; cbn [rb_fill_loop]; gall. Qed.
#[local] Hint Resolve i_fill_loop : baldb.
Lemma i_check w c e u : in_balance w (ex_acc e) -> gives (ex_bal w) (rb_check_active_orders w c e u).
Proof. intros H; unfold rb_check_active_orders; gall. Qed.
#[local] Hint Resolve i_check : baldb.
Lemma i_update w c e u : in_balance w (ex_acc e) -> gives (st_bal w) (rb_update_state w c e u).
Proof. intros H; unfold rb_update_state; gall. Qed.
#[local] Hint Resolve i_update : baldb.
Lemma i_map_out {A B} w (f : A -> B) (m : checked (exchange * result error A)) :
  gives (st_bal w) m -> gives (st_bal w) (w_map_out f m).
Proof. intros H; unfold w_map_out; gall. Qed.
#[local] Hint Resolve i_map_out : baldb.
Lemma i_step w c e o : in_balance w (ex_acc e) -> gives (st_bal w) (rb_step w c e o).
Proof. intros H; unfold rb_step; destruct o; gall. Qed.
#[local] Hint Resolve i_step : baldb.
Lemma i_run w c ops : forall e, in_balance w (ex_acc e) -> gives (st_bal w) (rb_run w c e ops).
Proof. induction ops as [|o ops IH]; intros e H; cbn [rb_run]; gall. Qed.

Lemma i_init w c : 0 < w -> gives (ex_bal w) (rb_init w c).
Proof.
  intros Hw; unfold rb_init, rb_exchange_new, rb_accounting_new.
  apply g_any; intros t; cbv zeta; unfold radd; do 2 (apply g_assoc; apply g_ret_bind; cbv beta). apply g_assoc.
  apply g_any; intros _; apply g_ret_bind; cbv beta; apply g_any; intros i; apply g_ret.
  split; [exact Hw|]. exists 0. cbn; lia.
Qed.
