(** When nothing overflows, every stored and returned number is a machine integer. *)
From Verif Require Import Base Types Filters Accounting Currency Position OrderBook OrderMargin Risk MarketUpdate Tracker Exchange
  Width Fixed FixedFit Wrapped WrapProof Spec SpecFixed SpecWrapped SpecFits BookLemmas.

Section Fits.
Variable w : Z.
Hypothesis Hw : 0 < w.
Variable L : Wrapped.ledger.
Notation ok := (machine_integer w).
Notation am z := (in_range w z).
Notation all l := (Forall ok l).

Hypothesis HT : forall a d c amt, all (ledger_numbers a) -> gives (fun a' => all (ledger_numbers a')) (l_transfer L a d c amt).

Lemma am0 : am 0.
Proof. unfold in_range. assert (0 < 2 ^ (w - 1)) by (apply Z.pow_pos_nonneg; lia). lia. Qed.

Lemma k_chk u z : gives (fun r => r = z /\ in_range u z) (chk u z).
Proof.
  unfold chk. destruct (fits u z) eqn:E; intros b H; [|discriminate]. injection H as <-. split; [reflexivity|].
  unfold fits in E. apply andb_prop in E as [A B]. unfold in_range. lia.
Qed.
Lemma k_count z : gives (fun r => r = z /\ 0 <= z < 2 ^ 64) (count z).
Proof.
  unfold count. destruct (fits_unsigned 64 z) eqn:E; intros b H; [|discriminate]. injection H as <-. split; [reflexivity|].
  unfold fits_unsigned in E. apply andb_prop in E as [A B]. lia.
Qed.
Lemma k_div s a b : gives (fun r => am r) (cdiv w s a b).
Proof. unfold cdiv. apply g_any. intros v x Hx. apply k_chk in Hx as [-> Hx]. exact Hx. Qed.
Lemma k_mul s a b : gives (fun r => am r) (cmul w s a b).
Proof. intros x Hx. apply k_chk in Hx as [-> Hx]. exact Hx. Qed.
Lemma k_add a b : gives (fun r => r = a + b /\ am r) (cadd w a b).
Proof. intros x Hx. apply k_chk in Hx as [-> Hx]. auto. Qed.
Lemma k_sub a b : gives (fun r => r = a - b /\ am r) (csub w a b).
Proof. intros x Hx. apply k_chk in Hx as [-> Hx]. auto. Qed.
Lemma k_convert k s a b : gives (fun r => am r) (w_convert_from w k s a b).
Proof. destruct k; [apply k_mul | apply k_div]. Qed.
Lemma k_weighted s a b c d : gives (fun r => am r) (w_new_weighted_price w s a b c d).
Proof. unfold w_new_weighted_price. do 4 (apply g_any; intros ?). apply k_div. Qed.
Lemma k_mid m : gives (fun _ => am (mid_price m)) (w_mid_price w m).
Proof.
  unfold w_mid_price. eapply g_bind; [apply k_add|]. cbv beta. intros x [-> _] y Hy. apply k_chk in Hy as [-> Hy]. exact Hy.
Qed.
Lemma k_assert b p : gives (fun _ => b = true) (Fine (assert b p)).
Proof. destruct b; intros x Hx; [reflexivity | discriminate]. Qed.

Ltac alls := repeat (apply Forall_cons; [first [assumption | exact am0]|]); apply Forall_nil.

(** ** Tracker *)
Lemma k_tracker_add t a b c d e f g h :
  all (tracker_numbers t) -> gives (fun t' => all (tracker_numbers t')) (w_tracker_add w t a b c d e f g h).
Proof.
  intros H. unfold w_tracker_add.
  do 6 (eapply g_bind; [apply k_count|]; cbv beta; intros ? [_ ?]).
  do 2 (eapply g_bind; [apply k_add|]; cbv beta; intros ? [-> ?]).
  apply g_ret. unfold tracker_numbers in *.
  cbn [tracker_add tk_start tk_sub_limit tk_cancelled tk_fill_events tk_fully_filled tk_sub_market tk_filled_market tk_buy_volume tk_sell_volume
       tk_price_first tk_price_last tk_ts_first tk_ts_last tk_last_balance_sum tk_samples app] in *.
  repeat (apply Forall_cons_iff in H as [? H]). repeat (apply Forall_cons; [assumption|]). exact H.
Qed.
Lemma k_log_trade c t sd p q : all (tracker_numbers t) -> gives (fun t' => all (tracker_numbers t')) (w_log_trade w c t sd p q).
Proof. intros H. unfold w_log_trade. apply g_any; intros ?. apply g_any; intros v. destruct sd; apply k_tracker_add; exact H. Qed.
Lemma k_tracker_update t m :
  all (tracker_numbers t) -> all (market_numbers m) -> gives (fun t' => all (tracker_numbers t')) (w_tracker_update w t m).
Proof.
  intros H Hm. unfold w_tracker_update. eapply g_bind; [apply k_mid|]. cbv beta. intros _ Hmid. apply g_ret.
  unfold tracker_numbers, market_numbers in *.
  cbn [tracker_update tk_start tk_sub_limit tk_cancelled tk_fill_events tk_fully_filled tk_sub_market tk_filled_market tk_buy_volume tk_sell_volume
       tk_price_first tk_price_last tk_ts_first tk_ts_last tk_last_balance_sum tk_samples app] in *.
  repeat (apply Forall_cons_iff in H as [? H]). repeat (apply Forall_cons_iff in Hm as [? Hm]).
  repeat (apply Forall_cons; [first [assumption | destruct (_ =? 0); assumption]|]). exact H.
Qed.
Lemma k_sample t s : all (tracker_numbers t) -> am s -> all (tracker_numbers (tracker_sample t s)).
Proof.
  intros H Hs. unfold tracker_numbers in *.
  cbn [tracker_sample tk_start tk_sub_limit tk_cancelled tk_fill_events tk_fully_filled tk_sub_market tk_filled_market tk_buy_volume tk_sell_volume
       tk_price_first tk_price_last tk_ts_first tk_ts_last tk_last_balance_sum tk_samples app map] in *.
  repeat (apply Forall_cons_iff in H as [? H]). repeat (apply Forall_cons; [assumption|]). exact H.
Qed.
Lemma k_trigger t ts :
  all (trigger_numbers t) -> ok (Tim ts) -> gives (fun x => all (trigger_numbers (fst x))) (w_should_trigger t ts).
Proof.
  intros H Hts. unfold trigger_numbers in H. inversion H as [|? ? H1 H2]; subst. inversion H2 as [|? ? H3 _]; subst.
  unfold w_should_trigger, should_trigger. destruct (tg_init t) eqn:E.
  - apply g_ret. cbn. alls.
  - eapply g_bind; [apply k_chk|]. cbv beta. intros x [-> Hx]. apply g_ret.
    destruct (_ <=? _); cbn; alls.
Qed.

(** ** Books *)
Lemma all_flat {A} (f : A -> list number) l : all (flat_map f l) <-> Forall (fun x => all (f x)) l.
Proof.
  induction l as [|x l IH]; cbn; [split; constructor|]. rewrite Forall_app, IH. split.
  - intros [A1 A2]. constructor; assumption.
  - intros H. inversion H; auto.
Qed.

Notation book b := (all (flat_map order_numbers b)).

Lemma k_replace b id o : book b -> all (order_numbers o) -> book (replace_by_id b id o).
Proof.
  rewrite !all_flat. intros Hb Ho. induction Hb as [|x b Hx Hb IH]; cbn; [constructor|].
  destruct (_ =? _); constructor; assumption.
Qed.
Lemma k_insert cap b o : book b -> all (order_numbers o) -> book (fst (book_insert cap b o)).
Proof.
  intros Hb Ho. unfold book_insert. destruct (get_by_id b (lo_id o)); cbn; [apply k_replace; assumption|].
  destruct (_ <=? _); cbn; [assumption|]. rewrite flat_map_app. apply Forall_app. split; [assumption|]. cbn. rewrite app_nil_r. exact Ho.
Qed.
Lemma k_om_update cap b o :
  book b -> all (order_numbers o) -> gives (fun x => book (fst x)) (Fine (om_update cap b o)).
Proof.
  intros Hb Ho x Hx. injection Hx as Hx. unfold om_update in Hx. destruct (assert _ _); [|discriminate]. cbn [bind] in Hx.
  pose proof (k_insert cap b o Hb Ho) as Hi. destruct (book_insert cap b o) as [b' [[old|]|]]; cbn [fst] in Hi.
  - destruct (assert (if limit_order_eq_dec old o then _ else _) _); [|discriminate]. cbn [bind] in Hx.
    destruct (assert (lo_rem o <? lo_rem old) _); [|discriminate]. injection Hx as <-. exact Hi.
  - injection Hx as <-. exact Hi.
  - injection Hx as <-. exact Hi.
Qed.
Lemma k_remove p b o b' : book b -> remove_by p b = Some (o, b') -> all (order_numbers o) /\ book b'.
Proof.
  rewrite !all_flat. intros Hb H. apply remove_by_spec in H as (_ & _ & H).
  eapply Permutation.Permutation_Forall in Hb; [|exact H]. inversion Hb; auto.
Qed.
Lemma k_om_remove b by_ : book b -> gives (fun b' => book b') (Fine (om_remove b by_)).
Proof.
  intros Hb x Hx. injection Hx as Hx. unfold om_remove, remove_by_order_id, remove_by_user_order_id in Hx.
  destruct by_; (destruct (remove_by _ b) as [[o b']|] eqn:E; [|discriminate]); injection Hx as <-; apply (k_remove _ _ _ _ Hb E).
Qed.
Lemma k_executed ids : forall b, book b -> gives (fun b' => book b') (Fine (remove_executed ids b)).
Proof.
  induction ids as [|id ids IH]; intros b Hb; cbn [remove_executed].
  - intros x Hx. injection Hx as <-. exact Hb.
  - unfold remove_by_order_id. destruct (remove_by _ b) as [[o b']|] eqn:E; [|apply g_panic].
    apply IH. apply (k_remove _ _ _ _ Hb E).
Qed.

(** ** Position *)
Definition pos_acc (x : position * accounts) : Prop := all (position_numbers (fst x)) /\ all (ledger_numbers (snd x)).
Definition inn_acc (x : position_inner * accounts) : Prop := all (position_numbers (Long (fst x))) /\ all (ledger_numbers (snd x)).

Ltac trio := cbn [position_numbers fst snd pi_qty pi_entry pi_fees]; alls.

Lemma k_inner_new c a q p f :
  all (ledger_numbers a) -> am q -> am p -> am f -> gives inn_acc (g_inner_new L w c a q p f).
Proof.
  intros Ha Hq Hp Hf. unfold g_inner_new; cbv zeta. do 4 (apply g_any; intros ?).
  eapply g_bind; [apply HT; exact Ha|]. cbv beta. intros a' Ha'. apply g_ret. split; [trio | exact Ha'].
Qed.
Lemma k_increase c i a q p f :
  all (position_numbers (Long i)) -> all (ledger_numbers a) -> am q -> am p -> am f -> gives inn_acc (g_increase_contracts L w c i a q p f).
Proof.
  intros Hi Ha Hq Hp Hf. unfold g_increase_contracts; cbv zeta. do 3 (apply g_any; intros ?).
  eapply g_bind; [apply k_weighted|]. cbv beta. intros en Hen.
  eapply g_bind; [apply k_add|]. cbv beta. intros q' [_ Hq'].
  eapply g_bind; [apply k_add|]. cbv beta. intros f' [_ Hf']. apply g_any; intros ?.
  eapply g_bind; [apply HT; exact Ha|]. cbv beta. intros a' Ha'. apply g_ret. split; [trio | exact Ha'].
Qed.
Lemma k_decrease c i a q p l f :
  all (position_numbers (Long i)) -> all (ledger_numbers a) -> am q -> am p -> am f -> gives inn_acc (g_decrease_contracts L w c i a q p l f).
Proof.
  intros Hi Ha Hq Hp Hf. inversion Hi as [|? ? _ Hi1]; subst. inversion Hi1 as [|? ? Hen _]; subst. clear Hi Hi1. cbn in Hen.
  unfold g_decrease_contracts; cbv zeta. do 2 (apply g_any; intros ?).
  eapply g_bind; [apply k_sub|]. cbv beta. intros q' [_ Hq'].
  eapply g_bind; [apply k_add|]. cbv beta. intros f' [_ Hf']. do 2 (apply g_any; intros ?). apply g_any; intros pr.
  apply (g_bind _ (fun a' => all (ledger_numbers a'))).
  { destruct (pr ?= 0); [apply g_ret; exact Ha | apply g_any; intros ?; apply HT; exact Ha | apply HT; exact Ha]. }
  intros acc1 Ha1. do 3 (apply g_any; intros ?). eapply g_bind; [apply HT; exact Ha1|]. cbv beta. intros acc2 Ha2.
  destruct (0 <? f').
  - eapply g_bind; [apply HT; exact Ha2|]. cbv beta. intros acc3 Ha3. apply g_ret. split; [trio | exact Ha3].
  - apply g_ret. split; [trio | exact Ha2].
Qed.
Lemma k_change c pos a q p sd f :
  all (position_numbers pos) -> all (ledger_numbers a) -> am q -> am p -> am f -> gives pos_acc (g_change_position L w c pos a q p sd f).
Proof.
  intros Hi Ha Hq Hp Hf. unfold g_change_position; cbv zeta. apply g_any; intros ?.
  assert (HN : forall a, all (ledger_numbers a) -> all (position_numbers Neutral) /\ all (ledger_numbers a)) by (intros; split; [constructor|assumption]).
  destruct pos as [|i|i].
  - apply g_any; intros ?. eapply g_bind; [apply k_inner_new; assumption|]. intros [j a'] [Hj Ha']. destruct sd; apply g_ret; split; assumption.
  - destruct sd.
    + eapply g_bind; [apply k_increase; assumption|]. intros [j a'] [Hj Ha']. apply g_ret; split; assumption.
    + destruct (q ?= pi_qty i).
      * eapply g_bind; [apply k_decrease; assumption|]. intros [j a'] [Hj Ha']. apply g_any; intros ?. apply g_ret. apply HN, Ha'.
      * eapply g_bind; [apply k_decrease; assumption|]. intros [j a'] [Hj Ha']. apply g_ret; split; assumption.
      * eapply g_bind; [apply k_sub|]. cbv beta. intros q' [_ Hq'].
        assert (Hiq : am (pi_qty i)) by (inversion Hi; assumption).
        eapply g_bind; [apply k_decrease; assumption|]. intros [j a'] [Hj Ha']. do 3 (apply g_any; intros ?).
        eapply g_bind; [apply k_inner_new; [exact Ha' | exact Hq' | exact Hp | exact am0]|]. intros [j2 acc2] [Hj2 Ha2]. apply g_ret; split; assumption.
  - destruct sd.
    + destruct (q ?= pi_qty i).
      * eapply g_bind; [apply k_decrease; assumption|]. intros [j a'] [Hj Ha']. apply g_any; intros ?. apply g_ret. apply HN, Ha'.
      * eapply g_bind; [apply k_decrease; assumption|]. intros [j a'] [Hj Ha']. apply g_ret; split; assumption.
      * eapply g_bind; [apply k_sub|]. cbv beta. intros q' [_ Hq'].
        assert (Hiq : am (pi_qty i)) by (inversion Hi; assumption).
        eapply g_bind; [apply k_decrease; assumption|]. intros [j a'] [Hj Ha']. do 3 (apply g_any; intros ?).
        eapply g_bind; [apply k_inner_new; [exact Ha' | exact Hq' | exact Hp | exact am0]|]. intros [j2 acc2] [Hj2 Ha2]. apply g_ret; split; assumption.
    + eapply g_bind; [apply k_increase; assumption|]. intros [j a'] [Hj Ha']. apply g_ret; split; assumption.
Qed.

(** ** Exchange *)
Record St (e : exchange) : Prop := {
  st_ms : all (market_numbers (ex_ms e));
  st_trk : all (tracker_numbers (ex_trk e));
  st_next : ok (Cnt (ex_next_id e));
  st_acc : all (ledger_numbers (ex_acc e));
  st_pos : all (position_numbers (ex_pos e));
  st_act : book (ex_active e);
  st_om : book (ex_om e);
  st_trig : all (trigger_numbers (ex_trig e));
  st_upd : all (flat_map report_numbers (ex_updates e)) }.

Ltac fields := cbn [set_ms set_trk set_next_id set_acc set_pos set_active set_om set_trig set_updates
                    ex_ms ex_trk ex_next_id ex_acc ex_pos ex_active ex_om ex_trig ex_updates fst snd] in *.
Ltac mk := constructor; fields; try assumption.

Lemma St_ms e v : St e -> all (market_numbers v) -> St (set_ms e v).
Proof. intros [] H; mk. Qed.
Lemma St_trk e v : St e -> all (tracker_numbers v) -> St (set_trk e v).
Proof. intros [] H; mk. Qed.
Lemma St_next e v : St e -> ok (Cnt v) -> St (set_next_id e v).
Proof. intros [] H; mk. Qed.
Lemma St_acc e v : St e -> all (ledger_numbers v) -> St (set_acc e v).
Proof. intros [] H; mk. Qed.
Lemma St_pos e v : St e -> all (position_numbers v) -> St (set_pos e v).
Proof. intros [] H; mk. Qed.
Lemma St_act e v : St e -> book v -> St (set_active e v).
Proof. intros [] H; mk. Qed.
Lemma St_om e v : St e -> book v -> St (set_om e v).
Proof. intros [] H; mk. Qed.
Lemma St_trig e v : St e -> all (trigger_numbers v) -> St (set_trig e v).
Proof. intros [] H; mk. Qed.
Lemma St_upd e v : St e -> all (flat_map report_numbers v) -> St (set_updates e v).
Proof. intros [] H; mk. Qed.

(** The result of a call that may fail. *)
Definition res {A} (f : A -> list number) (x : exchange * result error A) : Prop :=
  St (fst x) /\ match snd x with Ok a => all (f a) | Err _ => True end.
Lemma res_err {A} (f : A -> list number) e err : St e -> res f (e, Err err).
Proof. split; [assumption | exact I]. Qed.
Lemma res_ok {A} (f : A -> list number) e a : St e -> all (f a) -> res f (e, Ok a).
Proof. split; assumption. Qed.
Hint Resolve St_ms St_trk St_next St_acc St_pos St_act St_om St_trig St_upd res_err res_ok : core.

Lemma k_settle c e o :
  St e -> am (fm_qty o) -> am (fm_avg o) -> gives St (g_settle_filled_market_order L w c e o).
Proof.
  intros S Hq Hp. unfold g_settle_filled_market_order; cbv zeta. do 3 (apply g_any; intros ?).
  eapply g_bind; [apply k_mul|]. cbv beta. intros f Hf.
  eapply g_bind; [apply k_change; [apply st_pos, S | apply st_acc, S | assumption..]|]. intros [pos acc] [H1 H2]. cbn [fst snd] in H1, H2.
  eapply g_bind; [apply k_tracker_add, st_trk, S|]. cbv beta. intros t1 Ht1.
  eapply g_bind; [apply k_log_trade, Ht1|]. cbv beta. intros t2 Ht2. apply g_ret. auto.
Qed.

Lemma k_quote e sd : St e -> am (match sd with Buy => ms_ask (ex_ms e) | Sell => ms_bid (ex_ms e) end).
Proof. intros S. pose proof (st_ms e S) as H. inversion H as [|? ? H1 H']; subst. inversion H' as [|? ? H2 _]; subst. destruct sd; assumption. Qed.
Lemma k_now e : St e -> ok (Tim (ms_ts (ex_ms e))).
Proof.
  intros S. pose proof (st_ms e S) as H. inversion H as [|? ? _ H']; subst. inversion H' as [|? ? _ H'']; subst. inversion H''; assumption.
Qed.

Lemma k_market c e o : St e -> am (nm_qty o) -> gives (res market_order_numbers) (g_submit_market_order L w c e o).
Proof.
  intros S Hq. unfold g_submit_market_order; cbv zeta.
  eapply g_bind; [apply k_tracker_add, st_trk, S|]. cbv beta. intros t1 Ht1.
  assert (S1 : St (set_trk e t1)) by auto. apply g_any; intros v. destruct v; [|apply g_ret; auto].
  eapply g_bind; [apply k_count|]. cbv beta. intros n [-> Hn]. set (e1 := set_trk e t1) in *.
  assert (S2 : St (set_next_id e1 (ex_next_id e1 + 1))) by (apply St_next; assumption). set (e2 := set_next_id e1 _) in *.
  do 2 (apply g_any; intros ?). apply g_any; intros r. destruct r; [|apply g_ret; auto].
  pose proof (k_quote e2 (nm_side o) S2) as Hp. pose proof (k_now e2 S2) as Ht.
  eapply g_bind; [apply k_settle; [exact S2 | exact Hq | exact Hp]|]. intros e3 S3. apply g_ret. apply res_ok; [exact S3|].
  pose proof (st_next e1 S1) as Hid. cbn. alls.
Qed.

Lemma k_liquidate c e : St e -> gives St (g_liquidate L w c e).
Proof.
  intros S. unfold g_liquidate. apply (g_bind _ (fun o => am (nm_qty o))).
  - pose proof (st_pos e S) as Hp. destruct (ex_pos e) as [|i|i]; [apply g_panic|..].
    all: assert (Hi : am (pi_qty i)) by (inversion Hp; assumption).
    all: unfold market_new; destruct (_ <=? _); [apply g_panic|]; apply (g_ret _ {| nm_uid := 0 |}); exact Hi.
  - intros o Ho. eapply g_bind; [apply k_market; [exact S | exact Ho]|]. intros [e1 r] [S1 _]. destruct r; [apply g_ret; exact S1 | apply g_panic].
Qed.

Lemma k_append c e o : St e -> all (order_numbers o) -> gives (res (fun _ => [])) (g_append_limit_order L w c e o).
Proof.
  intros S Ho. unfold g_append_limit_order; cbv zeta.
  eapply g_bind; [apply k_om_update; [apply st_om, S | exact Ho]|]. intros [om r] Hom. cbn [fst] in Hom.
  assert (S1 : St (set_om e om)) by auto. destruct r; [|apply g_ret; auto].
  pose proof (k_insert active_capacity (ex_active (set_om e om)) o (st_act _ S1) Ho) as Hi.
  destruct (book_insert _ _ _) as [act r']; cbn [fst] in Hi.
  assert (S2 : St (set_active (set_om e om) act)) by auto. set (e2 := set_active _ act) in *.
  destruct r'; [|apply g_ret; auto]. do 2 (apply g_any; intros ?).
  destruct (_ ?= _); [apply g_ret; apply res_ok; [exact S2 | apply Forall_nil]|..]; apply g_any; intros ?;
  (eapply g_bind; [apply HT, st_acc, S2|]; cbv beta; intros acc' Ha; do 4 (apply g_any; intros ?);
   apply g_ret; apply res_ok; [apply St_acc; assumption | apply Forall_nil]).
Qed.

Lemma k_submit c e o : St e -> am (nl_price o) -> am (nl_rem o) -> gives (res order_numbers) (g_submit_limit_order L w c e o).
Proof.
  intros S Hp Hq. unfold g_submit_limit_order; cbv zeta.
  eapply g_bind; [apply k_tracker_add, st_trk, S|]. cbv beta. intros t1 Ht1.
  assert (S1 : St (set_trk e t1)) by auto. set (e1 := set_trk e t1) in *.
  apply g_any; intros v. destruct v; [|apply g_ret; auto]. apply g_any; intros mid. apply g_any; intros p. destruct p; [|apply g_ret; auto].
  eapply g_bind; [apply k_count|]. cbv beta. intros n [-> Hn].
  assert (S2 : St (set_next_id e1 (ex_next_id e1 + 1))) by (apply St_next; assumption). set (e2 := set_next_id e1 _) in *.
  apply g_any; intros ?. apply g_any; intros r. destruct r; [|apply g_ret; auto].
  destruct (marketable _ _); [apply g_ret; auto|].
  assert (Ho : all (order_numbers (limit_into_pending o (ex_next_id e1) (ms_ts (ex_ms e1))))).
  { pose proof (st_next e1 S1) as Hid. pose proof (k_now e1 S1) as Ht. cbn. alls. }
  eapply g_bind; [apply k_append; [exact S2 | exact Ho]|]. intros [e3 r'] [S3 _]. cbn [fst] in S3.
  destruct r'; apply g_ret; [apply res_ok; assumption | apply res_err; assumption].
Qed.

Lemma k_cancel c e by_ : St e -> gives (res order_numbers) (g_cancel_limit_order L w c e by_).
Proof.
  intros S. unfold g_cancel_limit_order; cbv zeta. do 3 (apply g_any; intros ?).
  assert (HR : forall o act, all (order_numbers o) -> book act -> forall (old : Z),
    gives (res order_numbers)
     (om' <~ Fine (om_remove (ex_om (set_active e act)) by_) ;;
      new_om <~ w_computed_order_margin w c (set_om (set_active e act) om') ;;
      _ <~ Fine (assert (new_om <=? old) PCancelMarginGrows) ;;
      e3 <~ (if new_om <? old then
               delta <~ csub w old new_om ;;
               acc <~ l_transfer L (ex_acc (set_om (set_active e act) om')) WALLET ORDER_MARGIN delta ;;
               ret (set_acc (set_om (set_active e act) om') acc)
             else ret (set_om (set_active e act) om')) ;;
      t <~ w_log_limit_order_cancellation w (ex_trk e3) ;;
      _ <~ Fine (assert (orders_eqb (ex_om (set_trk e3 t)) (ex_active (set_trk e3 t))) PCancelBooks) ;;
      b <~ g_empty_margin L (set_trk e3 t) ;;
      _ <~ Fine (assert b PCancelEmptyMargin) ;;
      ret (set_trk e3 t, Ok o))).
  { intros o act Ho Hact old. assert (S1 : St (set_active e act)) by auto.
    eapply g_bind; [apply k_om_remove, st_om, S1|]. cbv beta. intros om Hom.
    assert (S2 : St (set_om (set_active e act) om)) by auto. set (e2 := set_om _ om) in *.
    do 2 (apply g_any; intros ?). apply (g_bind _ St).
    - destruct (_ <? _); [|apply g_ret; exact S2]. apply g_any; intros ?.
      eapply g_bind; [apply HT, st_acc, S2|]. cbv beta. intros a' Ha'. apply g_ret. auto.
    - intros e3 S3. eapply g_bind; [apply k_tracker_add, st_trk, S3|]. cbv beta. intros t Ht. do 3 (apply g_any; intros ?).
      apply g_ret. auto. }
  unfold remove_by_order_id, remove_by_user_order_id. destruct by_ as [id|uid].
  - destruct (remove_by _ (ex_active e)) as [[o act]|] eqn:E; [|apply g_ret; auto].
    destruct (k_remove _ _ _ _ (st_act e S) E) as [Ho Hact]. apply HR; assumption.
  - destruct (remove_by _ (ex_active e)) as [[o act]|] eqn:E; [|apply g_ret; auto].
    destruct (k_remove _ _ _ _ (st_act e S) E) as [Ho Hact]. apply HR; assumption.
Qed.

Lemma k_amend c e id o : St e -> am (nl_price o) -> gives (res order_numbers) (g_amend_limit_order L w c e id o).
Proof.
  intros S Hp. unfold g_amend_limit_order. destruct (get_by_id _ _); [|apply g_ret; auto].
  do 2 (apply g_any; intros ?). eapply g_bind; [apply k_add|]. cbv beta. intros q [_ Hq]. destruct (_ <=? _).
  - eapply g_bind; [apply k_cancel, S|]. intros [e1 r] [S1 _]. destruct r; [apply g_ret; auto | apply g_panic].
  - unfold set_remaining_quantity. destruct (assert (0 <? q) PSetRemaining); [|apply g_panic_bind].
    cbn [bind]. apply (g_ret_bind _ {| nl_uid := nl_uid o; nl_side := nl_side o; nl_price := nl_price o; nl_rem := q |}).
    eapply g_bind; [apply k_cancel, S|]. intros [e1 r] [S1 _]. cbn [fst] in S1. destruct r; [|apply g_ret; auto]. apply k_submit; assumption.
Qed.

Lemma k_order_fill s o q ts :
  all (order_numbers o) -> ok (Tim ts) ->
  gives (fun x => all (order_numbers (fst x)) /\ am q /\ match snd x with Some f => all (filled_numbers f) | None => True end)
        (w_order_fill w s o q ts).
Proof.
  intros Ho Hts. unfold w_order_fill; cbv zeta.
  eapply g_bind; [apply k_assert|]. cbv beta. intros _ Q1. eapply g_bind; [apply k_assert|]. cbv beta. intros _ Q2.
  unfold order_numbers in Ho. apply Forall_app in Ho as [Ho Hf]. repeat (apply Forall_cons_iff in Ho as [? Ho]).
  assert (Hq : am q) by (unfold machine_integer, in_range in *; lia).
  destruct (lo_filled o) as [|cum avg].
  - eapply g_bind; [apply k_sub|]. cbv beta. intros rem [_ Hrem].
    destruct (_ =? _); apply g_ret; (split; [|split; [exact Hq|]]); cbn; try exact I; alls.
  - repeat (apply Forall_cons_iff in Hf as [? Hf]).
    eapply g_bind; [apply k_add|]. cbv beta. intros nq [_ Hnq].
    eapply g_bind; [apply k_weighted|]. cbv beta. intros av Hav.
    eapply g_bind; [apply k_sub|]. cbv beta. intros rem [_ Hrem].
    destruct (_ =? _); apply g_ret; (split; [|split; [exact Hq|]]); cbn; try exact I; alls.
Qed.

Lemma k_report e t om u :
  St e -> all (tracker_numbers t) -> book om -> all (report_numbers u) ->
  St (set_updates (set_om (set_trk e t) om) (ex_updates e ++ [u])).
Proof.
  intros S H1 H2 H3. apply St_upd; [auto|]. rewrite flat_map_app. apply Forall_app. split; [apply st_upd, S|].
  cbn. rewrite app_nil_r. exact H3.
Qed.

Lemma k_fill_one c u e ids o :
  St e -> all (order_numbers o) -> ok (Tim (update_ts u)) ->
  gives (fun x => St (fst (fst x)) /\ all (order_numbers (snd x))) (g_fill_one L w c u e ids o).
Proof.
  intros S Ho Hts. unfold g_fill_one; cbv zeta. apply g_any; intros f. destruct f as [q|]; [|apply g_ret; split; assumption].
  do 3 (apply g_any; intros ?). eapply g_bind; [apply k_order_fill; assumption|].
  intros [o' filled] (Ho' & Hq & Hfl). cbn [fst snd] in Ho', Hfl.
  apply (g_bind _ (fun x => St (fst x))).
  { destruct filled as [fo|].
    - eapply g_bind; [apply k_tracker_add, st_trk, S|]. cbv beta. intros t1 Ht1.
      eapply g_bind; [apply k_om_remove, st_om, S|]. cbv beta. intros om Hom. apply g_ret. cbn [fst]. apply k_report; assumption.
    - apply g_any; intros ?. eapply g_bind; [apply k_tracker_add, st_trk, S|]. cbv beta. intros t1 Ht1.
      eapply g_bind; [apply k_om_update; [apply st_om, S | exact Ho']|]. intros [om r] Hom. cbn [fst] in Hom.
      destruct r; [|apply g_panic]. apply g_ret. cbn [fst]. apply k_report; assumption. }
  intros [e1 ids1] S1. cbn [fst] in S1. apply g_any; intros ?. eapply g_bind; [apply k_mul|]. cbv beta. intros fees Hfees.
  assert (Hp : am (lo_price o')) by (inversion Ho'; assumption).
  eapply g_bind; [apply k_change; [apply st_pos, S1 | apply st_acc, S1 | assumption..]|]. intros [pos acc] [H1 H2]. cbn [fst snd] in H1, H2.
  assert (S2 : St (set_acc (set_pos e1 pos) acc)) by auto. set (e2 := set_acc _ acc) in *.
  eapply g_bind; [apply k_log_trade, st_trk, S2|]. cbv beta. intros t2 Ht2.
  assert (S3 : St (set_trk e2 t2)) by auto. set (e3 := set_trk e2 t2) in *.
  do 2 (apply g_any; intros ?). apply (g_bind _ St).
  - destruct (_ <? _); [|apply g_ret; exact S3]. apply g_any; intros ?.
    eapply g_bind; [apply HT, st_acc, S3|]. cbv beta. intros acc' Ha'. apply g_ret. auto.
  - intros e4 S4. apply g_ret. split; assumption.
Qed.

Lemma k_fill_loop c u : ok (Tim (update_ts u)) -> forall todo e ids,
  St e -> book todo -> gives (fun x => St (fst (fst x)) /\ book (snd x)) (g_fill_loop L w c u e ids todo).
Proof.
  intros Hts. induction todo as [|o todo IH]; intros e ids S Hb; cbn [g_fill_loop].
  - apply g_ret. split; [exact S | apply Forall_nil].
  - cbn [flat_map] in Hb. apply Forall_app in Hb as [Ho Hb].
    eapply g_bind; [apply k_fill_one; assumption|]. intros [[e1 ids1] o'] [S1 Ho']. cbn [fst snd] in S1, Ho'.
    eapply g_bind; [apply IH; assumption|]. intros [[e2 ids2] rest] [S2 Hr]. cbn [fst snd] in S2, Hr.
    apply g_ret. cbn [fst snd flat_map]. split; [exact S2|]. apply Forall_app. split; assumption.
Qed.

Lemma k_check c e u : St e -> ok (Tim (update_ts u)) -> gives St (g_check_active_orders L w c e u).
Proof.
  intros S Hts. unfold g_check_active_orders; cbv zeta.
  assert (S0 : St (set_updates e [])) by (apply St_upd; [exact S | apply Forall_nil]). set (e0 := set_updates e []) in *.
  destruct (negb _); [apply g_ret; exact S0|]. apply g_any; intros ?.
  eapply g_bind; [apply k_fill_loop; [exact Hts | exact S0 | apply st_act, S0]|].
  intros [[e1 ids] arena] [S1 Hb]. cbn [fst snd] in S1, Hb.
  eapply g_bind; [apply k_executed, Hb|]. cbv beta. intros act Hact. do 4 (apply g_any; intros ?). apply g_ret. auto.
Qed.

(** What of an update reaches the state: its quotes and its time. *)
Definition upd_ok (u : market_update) : Prop :=
  ok (Tim (update_ts u)) /\ forall m, am (ms_bid m) -> am (ms_ask m) -> am (ms_bid (update_market_state u m)) /\ am (ms_ask (update_market_state u m)).

Lemma k_market_update dbg f u m : upd_ok u -> all (market_numbers m) -> gives (fun m' => all (market_numbers m')) (w_market_update_state w dbg f u m).
Proof.
  intros [Hts Hu] Hm. unfold market_numbers in Hm. repeat (apply Forall_cons_iff in Hm as [? Hm]).
  unfold w_market_update_state; cbv zeta. apply g_any; intros ?. eapply g_bind; [apply k_count|]. cbv beta. intros n [-> Hn].
  apply g_ret. destruct (Hu m) as [? ?]; [assumption..|]. unfold market_numbers; cbn [ms_bid ms_ask ms_ts ms_step]. alls.
Qed.

Lemma k_update c e u : St e -> upd_ok u -> gives (res (flat_map report_numbers)) (g_update_state L w c e u).
Proof.
  intros S Hu. unfold g_update_state; cbv zeta.
  eapply g_bind; [apply k_market_update; [exact Hu | apply st_ms, S]|]. cbv beta. intros ms Hms.
  assert (S1 : St (set_ms e ms)) by auto. set (e1 := set_ms e ms) in *.
  eapply g_bind; [apply k_tracker_update; [apply st_trk, S1 | apply st_ms, S1]|]. cbv beta. intros t Ht.
  assert (S2 : St (set_trk e1 t)) by auto. set (e2 := set_trk e1 t) in *.
  eapply g_bind; [apply k_trigger; [apply st_trig, S2 | apply Hu]|]. intros [trig fire] Hg. cbn [fst] in Hg.
  assert (S3 : St (set_trig e2 trig)) by auto. set (e3 := set_trig e2 trig) in *.
  apply (g_bind _ St).
  { destruct fire; [|apply g_ret; exact S3]. do 2 (apply g_any; intros ?). unfold w_balances_sum. apply g_assoc, g_any; intros ?.
    eapply g_bind; [apply k_add|]. cbv beta. intros sum [_ Hsum]. apply g_ret. apply St_trk; [exact S3|]. apply k_sample; [apply st_trk, S3 | exact Hsum]. }
  intros e4 S4. apply g_any; intros m. destruct m.
  - eapply g_bind; [apply k_check; [exact S4 | apply Hu]|]. intros e5 S5. apply g_ret. apply res_ok; [exact S5 | apply st_upd, S5].
  - eapply g_bind; [apply k_liquidate, S4|]. intros e5 S5. apply g_ret. auto.
Qed.

Lemma k_build dbg r : all (raw_numbers r) -> gives upd_ok (w_build_update w dbg r).
Proof.
  intros H. unfold w_build_update. destruct r as [b|t|k|ts b f].
  - unfold raw_numbers, bba_numbers in H. repeat (apply Forall_cons_iff in H as [? H]). apply g_ret. split; cbn; auto.
  - unfold raw_numbers, trade_numbers in H. repeat (apply Forall_cons_iff in H as [? H]). apply g_ret. split; cbn; auto.
  - unfold raw_numbers in H. repeat (apply Forall_cons_iff in H as [? H]). apply g_ret. split; cbn; auto.
  - cbn [raw_numbers] in H. apply Forall_app in H as [Ht Hb]. unfold bba_numbers in Hb. repeat (apply Forall_cons_iff in Hb as [? Hb]).
    apply (g_bind _ (fun sc => sc_bba sc = b /\ ok (Tim (sc_ts sc)))).
    + unfold w_smart_candle_new. destruct ts as [|t0 ts]; [apply g_panic|]. cbv zeta. do 7 (apply g_any; intros ?). apply g_ret.
      split; [reflexivity|]. cbn [sc_ts]. apply all_flat in Ht. rewrite Forall_forall in Ht.
      assert (Hin : In (last (t0 :: ts) t0) (t0 :: ts)).
      { destruct (exists_last (l := t0 :: ts)) as (l' & x & ->); [discriminate|]. rewrite last_last. apply in_or_app. right. left. reflexivity. }
      specialize (Ht _ Hin). unfold trade_numbers in Ht. repeat (apply Forall_cons_iff in Ht as [? Ht]). assumption.
    + intros sc [E Hsc]. apply g_ret. split; [exact Hsc|]. intros m _ _. cbn. rewrite E. auto.
Qed.

Lemma k_map_out {A} (f : A -> out) (g : A -> list number) m :
  (forall a, out_numbers (Ok (f a)) = g a) -> gives (res g) m ->
  gives (fun x => St (fst x) /\ all (out_numbers (snd x))) (w_map_out f m).
Proof.
  intros Hf Hm. unfold w_map_out. eapply g_bind; [exact Hm|]. intros [e [a|err]] [S1 Ha]; cbn [fst snd] in *; apply g_ret; cbn [fst snd].
  - split; [exact S1|]. change (all (out_numbers (Ok (f a)))). rewrite Hf. exact Ha.
  - split; [exact S1 | apply Forall_nil].
Qed.

Lemma k_step c e o : St e -> all (op_numbers o) -> gives (fun x => St (fst x) /\ all (out_numbers (snd x))) (Wrapped.g_step L w c e o).
Proof.
  intros S H.
  assert (HE : forall err, gives (fun x => St (fst x) /\ all (out_numbers (snd x))) (ret (e, Err err : result error out)))
    by (intros err; apply g_ret; split; [exact S | apply Forall_nil]).
  destruct o; cbn [Wrapped.g_step op_numbers] in *.
  - eapply g_bind; [apply k_build, H|]. intros u Hu. apply (k_map_out _ (flat_map report_numbers)); [reflexivity|]. apply k_update; assumption.
  - unfold market_new. destruct (_ <=? _); [apply HE|]. apply (k_map_out _ market_order_numbers); [reflexivity|].
    apply k_market; [exact S|]. inversion H; assumption.
  - unfold limit_new. repeat (destruct (_ <=? _); [apply HE|]). apply (k_map_out _ order_numbers); [reflexivity|].
    repeat (apply Forall_cons_iff in H as [? H]). apply k_submit; assumption.
  - apply (k_map_out _ order_numbers); [reflexivity|]. apply k_cancel; assumption.
  - unfold limit_new. repeat (destruct (_ <=? _); [apply HE|]). apply (k_map_out _ order_numbers); [reflexivity|].
    repeat (apply Forall_cons_iff in H as [? H]). apply k_amend; assumption.
  - eapply g_bind; [apply k_build, H|]. intros u Hu. eapply g_bind; [apply k_check; [exact S | apply Hu]|].
    intros e1 S1. apply g_ret. split; [exact S1 | apply Forall_nil].
Qed.

Lemma k_run c ops : forall e, St e -> all (flat_map op_numbers ops) ->
  gives (fun x => St (fst x) /\ all (flat_map out_numbers (snd x))) (Wrapped.g_run L w c e ops).
Proof.
  induction ops as [|o ops IH]; intros e S H; cbn [Wrapped.g_run].
  - apply g_ret. split; [exact S | apply Forall_nil].
  - cbn [flat_map] in H. apply Forall_app in H as [Ho H]. eapply g_bind; [apply k_step; assumption|]. intros [e1 r] [S1 Hr]. cbn [fst snd] in S1, Hr.
    eapply g_bind; [apply IH; assumption|]. intros [e2 rs] [S2 Hrs]. cbn [fst snd] in S2, Hrs. apply g_ret. cbn [fst snd flat_map].
    split; [exact S2|]. apply Forall_app. split; assumption.
Qed.

Lemma k_init c :
  gives (fun a => all (ledger_numbers a) /\ am (c_start c)) (l_new L (c_start c)) -> gives St (Wrapped.g_init L c).
Proof.
  intros HN. unfold Wrapped.g_init, tracker_new. destruct (assert _ _); [|apply g_panic_bind]. cbn [bind].
  apply (g_ret_bind _ {| tk_start := c_start c |}). unfold g_exchange_new. eapply g_bind; [exact HN|]. cbv beta. intros acc [Ha Hs].
  eapply g_bind; [apply k_chk|]. cbv beta. intros i [-> Hi]. apply g_ret.
  assert (H0 : in_range 64 0) by (split; [apply Z.leb_le | apply Z.leb_le]; reflexivity).
  assert (H1 : 0 <= 0 < 2 ^ 64) by (split; [apply Z.leb_le | apply Z.ltb_lt]; reflexivity).
  constructor; cbn [ex_ms ex_trk ex_next_id ex_acc ex_pos ex_active ex_om ex_trig ex_updates]; try apply Forall_nil; try assumption;
  cbn; alls.
Qed.

Lemma St_all e : St e -> all (state_numbers e).
Proof.
  intros []. unfold state_numbers.
  do 2 (apply Forall_app; split; [assumption|]). apply Forall_app; split; [alls|].
  do 5 (apply Forall_app; split; [assumption|]). assumption.
Qed.

Lemma k_play c ops :
  gives (fun a => all (ledger_numbers a) /\ am (c_start c)) (l_new L (c_start c)) -> all (flat_map op_numbers ops) ->
  gives (fun x => all (state_numbers (fst x) ++ flat_map out_numbers (snd x))) (e <~ Wrapped.g_init L c ;; Wrapped.g_run L w c e ops).
Proof.
  intros HN H. eapply g_bind; [apply k_init, HN|]. intros e0 S0. intros x Hx. apply (k_run c ops e0 S0 H) in Hx as [S1 H1].
  apply Forall_app. split; [apply St_all, S1 | exact H1].
Qed.
End Fits.

(** ** The two ledgers *)
Section Ledgers.
Variable w : Z.
Hypothesis Hw : 0 < w.
Notation all l := (Forall (machine_integer w) l).

Lemma all_ledger a :
  all (ledger_numbers a) <-> forall id, in_range w (ta_debits (get_account a id)) /\ in_range w (ta_credits (get_account a id)).
Proof.
  unfold ledger_numbers, total_numbers. cbn [flat_map app]. split.
  - intros H. repeat (apply Forall_cons_iff in H as [? H]). intros []; cbn; auto.
  - intros H. pose proof (H WALLET) as []. pose proof (H ORDER_MARGIN) as []. pose proof (H POSITION_MARGIN) as [].
    pose proof (H FEE) as []. pose proof (H BROKER) as []. pose proof (H TREASURY) as []. cbn in *.
    repeat (apply Forall_cons; [assumption|]). apply Forall_nil.
Qed.

Lemma ledger_post a i j x y :
  all (ledger_numbers a) -> in_range w x -> in_range w y ->
  all (ledger_numbers (set_account (set_account a i {| ta_debits := ta_debits (get_account a i); ta_credits := x |})
                         j {| ta_debits := y; ta_credits := ta_credits (get_account a j) |})).
Proof.
  rewrite !all_ledger. intros H Hx Hy id. rewrite !get_set.
  destruct (account_id_eq_dec j id); cbn; [split; [exact Hy | apply H]|].
  destruct (account_id_eq_dec i id); cbn; [split; [apply H | exact Hx] | apply H].
Qed.

Lemma range_wrap z : in_range w (wrap w z).
Proof. apply (wrap_spec w Hw z). Qed.

Lemma checked_transfer dbg a d c amt : all (ledger_numbers a) -> gives (fun a' => all (ledger_numbers a')) (w_transfer w dbg a d c amt).
Proof.
  intros H. unfold w_transfer; cbv zeta. apply g_any; intros tx.
  eapply g_bind; [apply k_add|]. cbv beta. intros x [_ Hx]. eapply g_bind; [apply k_add|]. cbv beta. intros y [_ Hy].
  apply g_any; intros _. apply g_ret. apply ledger_post; assumption.
Qed.
Lemma wrapping_transfer a d c amt : all (ledger_numbers a) -> gives (fun a' => all (ledger_numbers a')) (v_transfer w a d c amt).
Proof.
  intros H. unfold v_transfer; cbv zeta. do 3 (apply g_any; intros ?). apply g_ret. apply ledger_post; [exact H | apply range_wrap..].
Qed.

Ltac zeros := cbn; repeat (apply Forall_cons; [first [assumption | exact (am0 w Hw)]|]); apply Forall_nil.
Lemma checked_new dbg s : gives (fun a => all (ledger_numbers a) /\ in_range w s) (w_accounting_new w dbg s).
Proof.
  unfold w_accounting_new; cbv zeta. eapply g_bind; [apply k_add|]. cbv beta. intros x [Ex Hx].
  eapply g_bind; [apply k_add|]. cbv beta. intros y [_ Hy]. apply g_any; intros _. apply g_ret.
  split; [zeros | subst x; exact Hx].
Qed.
Lemma wrapping_new s : gives (fun a => all (ledger_numbers a) /\ in_range w s) (v_accounting_new w s).
Proof.
  unfold v_accounting_new; cbv zeta. eapply g_bind; [apply k_add|]. cbv beta. intros x [Ex Hx].
  eapply g_bind; [apply k_add|]. cbv beta. intros y [_ Hy]. apply g_any; intros _. apply g_ret.
  split; [zeros | subst x; exact Hx].
Qed.

Lemma checked_numbers c ops e outs :
  all (flat_map op_numbers ops) -> w_play w c ops = Fine (Done (e, outs)) -> all (state_numbers e ++ flat_map out_numbers outs).
Proof.
  intros H E. unfold w_play in E. change (w_init w c) with (Wrapped.g_init (checked_ledger w (c_dbg c)) c) in E.
  apply (k_play w Hw (checked_ledger w (c_dbg c)) (fun a d c' amt => checked_transfer (c_dbg c) a d c' amt) c ops (checked_new _ _) H (e, outs)).
  rewrite <- E. apply bind_ext. intros e0. apply same_run.
Qed.

Lemma wrapping_numbers c ops e outs :
  all (flat_map op_numbers ops) -> v_play w c ops = Fine (Done (e, outs)) -> all (state_numbers e ++ flat_map out_numbers outs).
Proof.
  intros H E. exact (k_play w Hw (wrapping_ledger w) wrapping_transfer c ops (wrapping_new _) H (e, outs) E).
Qed.
End Ledgers.

(** Deciding [machine_integer], for the examples. *)
Definition number_fits (w : Z) (n : number) : bool :=
  match n with Amt z => fits w z | Cnt z => fits_unsigned 64 z | Tim z => fits 64 z end.
Lemma numbers_ok w l : forallb (number_fits w) l = true -> Forall (machine_integer w) l.
Proof.
  intros H. rewrite forallb_forall in H. apply Forall_forall. intros n Hn. specialize (H n Hn).
  destruct n; cbn [number_fits machine_integer] in *; unfold fits, fits_unsigned, in_range in *; lia.
Qed.
