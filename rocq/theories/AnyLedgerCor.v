(** Glue for P_AnyAccounting.v. *)
From Verif Require Import Base Types Filters Accounting Currency Position OrderBook OrderMargin Risk MarketUpdate Tracker Exchange
  Spec SpecConfig SpecMarket SpecMargin Scenario Ledger SpecLedger ScenarioLedger AnyLedgerProof MockProof AnyBooksProof DecideProof RefuseProof ProofBase.

Lemma play_same {A} (L : accounting A) ok c ops : lawful L (c_start c) ok ->
  match play c ops with
  | Panic p => a_play L c ops = Panic p
  | Done (e', outs) => exists a e, a_play L c ops = Done (a, (e, outs)) /\ same_rest e e' /\ same_balances L a (ex_acc e') /\ ok a
  end.
Proof. intros H. exact (lawful_same L ok c ops H). Qed.
Lemma getters_same {A} (L : accounting A) ok c ops e outs : lawful L (c_start c) ok -> play c ops = Done (e, outs) ->
  exists a e', a_play L c ops = Done (a, (e', outs)) /\ a_fees_paid L a = Done (a, margin_balance_of (ex_acc e) FEE) /\
    a_balances L a = Done (a, {| ub_wallet := wallet_of e; ub_pm := position_margin_of e; ub_om := order_margin_of e |}).
Proof.
  intros H P. pose proof (play_same L ok c ops H) as S. rewrite P in S. destruct S as (a & e' & R & _ & B & _). exists a, e'.
  assert (K : forall id, bal L id a = Done (a, margin_balance_of (ex_acc e) id)).
  { intros id. unfold bal, ask, abind. rewrite (B id). reflexivity. }
  split; [exact R|]. split; [exact (K FEE)|]. unfold a_balances, abind. rewrite (K WALLET). cbn [bind]. rewrite (K POSITION_MARGIN). cbn [bind].
  rewrite (K ORDER_MARGIN). reflexivity.
Qed.
Lemma mock_trades_nothing c ops a e outs : valid_config c -> 0 <= ct_taker (c_spec c) -> a_play mock c ops = Done (a, (e, outs)) ->
  ex_pos e = Neutral /\ Forall quiet outs /\ forall o, In o (ex_active e) -> margin_at c (lo_rem o) (lo_price o) = 0.
Proof. intros V T H. exact (mock_idle c V T ops a e outs H). Qed.
Lemma any_accounting_in_order {A} (L : accounting A) c ops a e outs : 0 <= c_max c <= 10000 ->
  a_play L c ops = Done (a, (e, outs)) -> in_order c e.
Proof. intros [Z C] H. exact (any_in_order L c C ops a e outs Z H). Qed.
Lemma any_accounting_decides {A B} (L : accounting A) (M : accounting B) c ops a e outs b e' outs' : 0 <= c_max c <= 10000 ->
  a_play L c ops = Done (a, (e, outs)) -> a_play M c ops = Done (b, (e', outs')) -> map okay outs = map okay outs' ->
  like e e' /\ Forall2 alike outs outs'.
Proof. intros [Z C] H H' O. exact (only_decides L M c C ops a e outs b e' outs' Z H H' O). Qed.
Lemma any_accounting_size {A} (L : accounting A) c ops o a e outs b e' r : 0 <= c_max c <= 10000 ->
  a_play L c ops = Done (a, (e, outs)) -> a_step L c e o a = Done (b, (e', Ok (OutMarket r))) ->
  position_quantity (ex_pos e') = position_quantity (ex_pos e) + match fm_side r with Buy => fm_qty r | Sell => - fm_qty r end /\
  ex_active e' = ex_active e.
Proof.
  intros [Z C] H S. apply (any_in_order L c C) in H; [|exact Z]. apply mine_in_order in H. destruct o as [u|sd q uid|sd p q uid|by_|id sd p q uid|u]; cbn [a_step] in S.
  - apply lift_bind in S as (w & _ & S). apply abind_done in S as (a1 & [e1 [x|x]] & _ & K); discriminate K.
  - destruct (market_new sd q uid) as [m|err]; [|discriminate]. apply abind_done in S as (a1 & [e1 [x|x]] & S & K); [|discriminate K].
    injection K as <- <- <-. apply any_market in S; [|exact H]. destruct S as (_ & S1 & S2). split; [exact S2 | exact S1].
  - destruct (limit_new sd p q uid) as [m|err]; [|discriminate]. apply abind_done in S as (a1 & [e1 [x|x]] & S & K); discriminate K.
  - apply abind_done in S as (a1 & [e1 [x|x]] & S & K); discriminate K.
  - destruct (limit_new sd p q uid) as [m|err]; [|discriminate]. apply abind_done in S as (a1 & [e1 [x|x]] & S & K); discriminate K.
  - apply lift_bind in S as (w & _ & S). apply abind_done in S as (a1 & e1 & _ & K). discriminate K.
Qed.
Lemma columns_lawful start : lawful columns start (fun _ => True).
Proof.
  split.
  - eexists. split; [reflexivity|]. split; [exact I|]. intros id. cbn [columns a_balance]. repeat f_equal.
    cbn [map fold_right fst snd]. destruct id; cbn; lia.
  - intros l d k amt _ M Ha. eexists. split; [reflexivity|]. split; [exact I|]. intros id v H. cbn [columns a_balance tx_debit tx_credit tx_amount] in *.
    injection H as <-. repeat f_equal. cbn [map fold_right fst snd].
    assert (N : d <> k) by (intros ->; destruct k; exact M).
    destruct (account_id_eq_dec d id) as [->|D].
    + destruct (account_id_eq_dec id id) as [_|?]; [|contradiction]. destruct (account_id_eq_dec k id) as [->|_]; [contradiction|]. lia.
    + destruct (account_id_eq_dec id d) as [->|_]; [contradiction|]. destruct (account_id_eq_dec k id) as [->|K].
      * destruct (account_id_eq_dec id id) as [_|?]; [|contradiction]. lia.
      * destruct (account_id_eq_dec id k) as [->|_]; [contradiction|]. lia.
Qed.
