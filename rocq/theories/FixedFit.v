(** When nothing overflows, the ledger totals fit the integer type. *)
From Verif Require Import Base Types Filters Accounting Currency Position OrderBook OrderMargin
  Risk MarketUpdate Tracker Exchange Width Fixed.

Definition fits_totals (w : Z) (a : accounts) : Prop :=
  forall id, fits w (ta_debits (get_account a id)) = true /\ fits w (ta_credits (get_account a id)) = true.

(** If [m] returns a value, the value satisfies [P]. *)
Definition gives {A} (P : A -> Prop) (m : checked A) : Prop := forall a, m = Fine (Done a) -> P a.

Lemma g_ret {A} (P : A -> Prop) a : P a -> gives P (ret a).
Proof. intros H b E; injection E as <-; assumption. Qed.
Lemma g_panic {A} (P : A -> Prop) p : gives P (Fine (Panic p)).
Proof. intros b E; discriminate. Qed.
Lemma g_any {A B} (P : B -> Prop) (m : checked A) k : (forall a, gives P (k a)) -> gives P (cbind m k).
Proof. intros H b E; destruct m as [[a|]|]; cbn in E; try discriminate; exact (H a b E). Qed.
Lemma g_bind {A B} (P : B -> Prop) (Q : A -> Prop) (m : checked A) k :
  gives Q m -> (forall a, Q a -> gives P (k a)) -> gives P (cbind m k).
Proof. intros Hm H b E; destruct m as [[a|]|]; cbn in E; try discriminate; exact (H a (Hm a eq_refl) b E). Qed.
Lemma g_assoc {A B C} (P : C -> Prop) (m : checked A) (k : A -> checked B) (l : B -> checked C) :
  gives P (cbind m (fun a => cbind (k a) l)) -> gives P (cbind (cbind m k) l).
Proof. destruct m as [[a|]|]; exact (fun H => H). Qed.
Lemma g_ret_bind {A B} (P : B -> Prop) (a : A) k : gives P (k a) -> gives P (cbind (ret a) k).
Proof. exact (fun H => H). Qed.
Lemma g_panic_bind {A B} (P : B -> Prop) p (k : A -> checked B) : gives P (cbind (Fine (Panic p)) k).
Proof. intros b E; discriminate. Qed.

Lemma g_chk w z : gives (fun r => fits w r = true) (chk w z).
Proof. unfold chk; destruct (fits w z) eqn:E; intros b H; [injection H as <-; assumption | discriminate]. Qed.

Lemma g_transfer w dbg a d k amt : fits_totals w a -> gives (fits_totals w) (w_transfer w dbg a d k amt).
Proof.
  intros H; unfold w_transfer; apply g_any; intros [d' k' amt']; cbn [tx_debit tx_credit tx_amount].
  eapply g_bind; [apply g_chk|]; cbv beta; intros x Hx.
  eapply g_bind; [apply g_chk|]; cbv beta; intros y Hy.
  cbv zeta; apply g_any; intros _; apply g_ret.
  destruct a as [aw ao ap af ab at_].
  intros id; generalize (H id); generalize (H d'); generalize (H k').
  destruct d', k'; cbn; destruct id; cbn; tauto.
Qed.

Create HintDb fitdb.
#[local] Hint Constants Opaque : fitdb.
#[local] Hint Resolve g_transfer : fitdb.

#[local] Hint Extern 1 (fits_totals _ _) => assumption : fitdb.

Definition snd_fits {A} (w : Z) (x : A * accounts) : Prop := fits_totals w (snd x).
Definition ex_fits (w : Z) (e : exchange) : Prop := fits_totals w (ex_acc e).
Definition st_fits {A} (w : Z) (x : exchange * A) : Prop := fits_totals w (ex_acc (fst x)).
Definition st2_fits {A B} (w : Z) (x : exchange * A * B) : Prop := fits_totals w (ex_acc (fst (fst x))).

Ltac gopen := unfold st2_fits, st_fits, snd_fits, ex_fits in * |-; cbn [fst snd] in * |-.
Ltac ggo :=
  match goal with
  | |- gives _ (ret _) => apply g_ret; gopen; unfold st2_fits, st_fits, snd_fits, ex_fits; cbn [fst snd]; assumption
  | |- gives _ (Fine (Panic _)) => apply g_panic
  | |- gives _ (cbind (ret _) _) => apply g_ret_bind; cbv beta
  | |- gives _ (cbind (Fine (Panic _)) _) => apply g_panic_bind
  | |- gives _ (cbind (cbind _ _) _) => apply g_assoc
  | |- gives _ (cbind (match ?x with _ => _ end) _) => destruct x; gopen
  | |- gives _ (cbind _ _) =>
      first [ eapply g_bind; [solve [eauto 3 with fitdb] | cbv beta; intros ? ?; gopen] | apply g_any; intros ? ]
  | |- gives _ (match ?x with _ => _ end) => destruct x; gopen
  | |- _ => solve [eauto 3 with fitdb]
  end.
Ltac gall := cbv zeta; repeat ggo.

Lemma g_inner_new w c a q p f : fits_totals w a -> gives (snd_fits w) (w_inner_new w c a q p f).
Proof. intros H; unfold w_inner_new; gall. Qed.
Lemma g_increase w c p a q pr f : fits_totals w a -> gives (snd_fits w) (w_increase_contracts w c p a q pr f).
Proof. intros H; unfold w_increase_contracts; gall. Qed.
Lemma g_decrease w c p a q pr l f : fits_totals w a -> gives (snd_fits w) (w_decrease_contracts w c p a q pr l f).
Proof. intros H; unfold w_decrease_contracts; gall. Qed.
#[local] Hint Resolve g_inner_new g_increase g_decrease : fitdb.
Lemma g_change w c pos a q p sd f : fits_totals w a -> gives (snd_fits w) (w_change_position w c pos a q p sd f).
Proof. intros H; unfold w_change_position; gall. Qed.
#[local] Hint Resolve g_change : fitdb.
Lemma g_settle w c e o : fits_totals w (ex_acc e) -> gives (ex_fits w) (w_settle_filled_market_order w c e o).
Proof. intros H; unfold w_settle_filled_market_order; gall. Qed.
#[local] Hint Resolve g_settle : fitdb.
Lemma g_market w c e o : fits_totals w (ex_acc e) -> gives (st_fits w) (w_submit_market_order w c e o).
Proof. intros H; unfold w_submit_market_order; gall. Qed.
#[local] Hint Resolve g_market : fitdb.
Lemma g_liquidate w c e : fits_totals w (ex_acc e) -> gives (ex_fits w) (w_liquidate w c e).
Proof. intros H; unfold w_liquidate; gall. Qed.
Lemma g_append w c e o : fits_totals w (ex_acc e) -> gives (st_fits w) (w_append_limit_order w c e o).
Proof. intros H; unfold w_append_limit_order; gall. Qed.
#[local] Hint Resolve g_liquidate g_append : fitdb.
Lemma g_submit w c e o : fits_totals w (ex_acc e) -> gives (st_fits w) (w_submit_limit_order w c e o).
Proof. intros H; unfold w_submit_limit_order; gall. Qed.
Lemma g_cancel w c e b : fits_totals w (ex_acc e) -> gives (st_fits w) (w_cancel_limit_order w c e b).
Proof. intros H; unfold w_cancel_limit_order; destruct b; gall. Qed.
#[local] Hint Resolve g_submit g_cancel : fitdb.
Lemma g_amend w c e id o : fits_totals w (ex_acc e) -> gives (st_fits w) (w_amend_limit_order w c e id o).
Proof. intros H; unfold w_amend_limit_order; gall. Qed.
Lemma g_fill_one w c u e ids o : fits_totals w (ex_acc e) -> gives (st2_fits w) (w_fill_one w c u e ids o).
Proof. intros H; unfold w_fill_one; gall. Qed.
#[local] Hint Resolve g_amend g_fill_one : fitdb.
Lemma g_fill_loop w c u todo : forall e ids, fits_totals w (ex_acc e) -> gives (st2_fits w) (w_fill_loop w c u e ids todo).
Proof. induction todo as [|o todo IH]; intros e ids H; cbn [w_fill_loop]; gall. Qed.
#[local] Hint Resolve g_fill_loop : fitdb.
Lemma g_check w c e u : fits_totals w (ex_acc e) -> gives (ex_fits w) (w_check_active_orders w c e u).
Proof. intros H; unfold w_check_active_orders; gall. Qed.
#[local] Hint Resolve g_check : fitdb.
Lemma g_update w c e u : fits_totals w (ex_acc e) -> gives (st_fits w) (w_update_state w c e u).
Proof. intros H; unfold w_update_state; gall. Qed.
#[local] Hint Resolve g_update : fitdb.
Lemma g_map_out {A B} w (f : A -> B) (m : checked (exchange * result error A)) :
  gives (st_fits w) m -> gives (st_fits w) (w_map_out f m).
Proof. intros H; unfold w_map_out; gall. Qed.
#[local] Hint Resolve g_map_out : fitdb.
Lemma g_step w c e o : fits_totals w (ex_acc e) -> gives (st_fits w) (w_step w c e o).
Proof. intros H; unfold w_step; destruct o; gall. Qed.
#[local] Hint Resolve g_step : fitdb.
Lemma g_run w c ops : forall e, fits_totals w (ex_acc e) -> gives (st_fits w) (w_run w c e ops).
Proof. induction ops as [|o ops IH]; intros e H; cbn [w_run]; gall. Qed.

Lemma g_init w c : 0 < w -> gives (ex_fits w) (w_init w c).
Proof.
  intros Hw; unfold w_init, w_exchange_new, w_accounting_new.
  apply g_any; intros t; cbv zeta; apply g_assoc.
  eapply g_bind; [apply g_chk|]; cbv beta; intros x Hx; apply g_assoc.
  eapply g_bind; [apply g_chk|]; cbv beta; intros y Hy; apply g_assoc.
  apply g_any; intros _; apply g_ret_bind; cbv beta; apply g_any; intros i; apply g_ret.
  assert (H0 : fits w 0 = true).
  { unfold fits; assert (0 < 2 ^ (w - 1)) by (apply Z.pow_pos_nonneg; lia); apply andb_true_intro; lia. }
  intros id; destruct id; cbn; tauto.
Qed.
