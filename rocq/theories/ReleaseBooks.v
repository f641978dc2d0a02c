(** In a build without overflow checks the two lists of resting orders stay equal, whatever wraps around. *)
From Coq Require Import Permutation.
From Verif Require Import ProofBase BookLemmas StepLemmas FillLemmas Inv.
From Verif Require Import Filters Accounting Currency Position OrderBook OrderMargin
  Risk MarketUpdate Tracker Exchange Width Fixed FixedFit Wrapped Release Spec.

Definition good (nid : Z) (x : limit_order) : Prop := 0 <= lo_id x < nid /\ 0 < lo_price x /\ 0 < lo_rem x.
Definition books (cap n : Z) (om act : list limit_order) (nid : Z) : Prop :=
  om = act /\ NoDup (ids act) /\ (forall x, In x act -> good nid x) /\ 0 <= nid <= n /\ Z.of_nat (length act) <= cap.
Definition bk (c : config) (n : Z) (e : exchange) : Prop := books (c_max c) n (ex_om e) (ex_active e) (ex_next_id e).
Definition bk1 {A} (c : config) (n : Z) (x : exchange * A) : Prop := bk c n (fst x).

Lemma books_more cap n m om act nid : n <= m -> books cap n om act nid -> books cap m om act nid.
Proof. intros H (H1 & H2 & H3 & H4 & H5). unfold books. repeat (split; [assumption || lia|]). assumption. Qed.
Lemma books_next cap n om act nid nid' : nid <= nid' <= n -> books cap n om act nid -> books cap n om act nid'.
Proof.
  intros H (H1 & H2 & H3 & H4 & H5). unfold books. split; [assumption|]. split; [assumption|].
  split; [|split; [lia|assumption]]. intros x Hx. destruct (H3 x Hx). unfold good. split; [lia|assumption].
Qed.

Lemma rcount_in z : 0 <= z < 2 ^ 64 -> rcount z = ret z.
Proof. intros H. unfold rcount. rewrite Z.mod_small by exact H. reflexivity. Qed.

Create HintDb bkdb.
#[local] Hint Constants Opaque : bkdb.
Ltac bopen := unfold bk1, bk in * |-; cbn [fst snd ex_om ex_active ex_next_id set_ms set_trk set_next_id set_acc set_pos set_active set_om set_trig set_updates] in * |-.
Ltac bgo :=
  match goal with
  | |- gives _ (ret _) => apply g_ret; bopen; unfold bk1, bk; cbn [fst snd ex_om ex_active ex_next_id set_ms set_trk set_next_id set_acc set_pos set_active set_om set_trig set_updates]; assumption
  | |- gives _ (Fine (Panic _)) => apply g_panic
  | |- gives _ (cbind (ret _) _) => apply g_ret_bind; cbv beta
  | |- gives _ (cbind (Fine (Panic _)) _) => apply g_panic_bind
  | |- gives _ (cbind (cbind _ _) _) => apply g_assoc
  | |- gives _ (cbind (match ?x with _ => _ end) _) => destruct x; bopen
  | |- gives _ (cbind _ _) =>
      first [ eapply g_bind; [solve [eauto 3 with bkdb] | cbv beta; intros ? ?; bopen] | apply g_any; intros ? ]
  | |- gives _ (match ?x with _ => _ end) => destruct x; bopen
  | |- _ => solve [eauto 3 with bkdb]
  end.
Ltac ball := cbv zeta; repeat bgo.

Lemma b_settle w c n e o : bk c n e -> gives (bk c n) (rb_settle_filled_market_order w c e o).
Proof. intros H; unfold rb_settle_filled_market_order; ball. Qed.
#[local] Hint Resolve b_settle : bkdb.

Lemma b_market w c n e o : n + 1 < 2 ^ 64 -> bk c n e -> gives (bk1 c (n + 1)) (rb_submit_market_order w c e o).
Proof.
  intros Hn H. assert (H' : books (c_max c) (n + 1) (ex_om e) (ex_active e) (ex_next_id e)) by (apply (books_more _ n); [lia | exact H]).
  unfold rb_submit_market_order. apply g_any; intros t. cbv zeta. apply g_any; intros [[]|err]; [|bgo].
  cbn [set_trk ex_next_id]. destruct H as (_ & _ & _ & Hi & _). rewrite rcount_in by lia. apply g_ret_bind; cbv beta.
  assert (H2 : books (c_max c) (n + 1) (ex_om e) (ex_active e) (ex_next_id e + 1)) by (apply (books_next _ _ _ _ (ex_next_id e)); [lia | exact H']).
  do 3 (apply g_any; intros ?). bgo; [|bgo].
  eapply g_bind; [apply (b_settle w c (n + 1)); exact H2|]. cbv beta; intros e3 H3. bgo.
Qed.
#[local] Hint Resolve b_market : bkdb.

Lemma b_liquidate w c n e : n + 1 < 2 ^ 64 -> bk c n e -> gives (bk c (n + 1)) (rb_liquidate w c e).
Proof.
  intros Hn H; unfold rb_liquidate. apply g_any; intros o.
  eapply g_bind; [apply (b_market w c n e o Hn H)|]. intros [e1 r] H1. cbv beta iota. bgo; [bgo|apply g_panic].
Qed.

Lemma b_append w c n e o : c_max c <= active_capacity ->
  books (c_max c) n (ex_om e) (ex_active e) (ex_next_id e) -> ~ In (lo_id o) (ids (ex_active e)) -> good (ex_next_id e) o ->
  gives (bk1 c n) (rb_append_limit_order w c e o).
Proof.
  intros Hm H Hf Ho. assert (H0 := H). destruct H as (HE & HN & HG & HI & HL).
  unfold rb_append_limit_order, om_update. rewrite HE.
  assert (Ep : (0 <? lo_rem o) = true) by (unfold good in Ho; lia). rewrite Ep. cbn [assert bind].
  rewrite book_insert_new by exact Hf.
  destruct (Z.leb_spec (c_max c) (Z.of_nat (length (ex_active e)))) as [Hc|Hc].
  - cbn [bind cbind]. apply g_ret. unfold bk1, bk. cbn [fst set_om ex_om ex_active ex_next_id]. rewrite HE in H0. exact H0.
  - cbn [bind cbind]. cbn [set_om ex_active]. rewrite book_insert_new by exact Hf.
    destruct (Z.leb_spec active_capacity (Z.of_nat (length (ex_active e)))); [lia|].
    assert (H1 : books (c_max c) n (ex_active e ++ [o]) (ex_active e ++ [o]) (ex_next_id e)).
    { unfold books. split; [reflexivity|]. split; [rewrite ids_app; apply NoDup_app_single; assumption|].
      split; [intros x Hx; apply in_app_or in Hx as [Hx|[<-|[]]]; [apply HG, Hx | exact Ho]|].
      split; [exact HI|]. rewrite app_length. cbn [length]. lia. }
    cbv zeta. apply g_any; intros a. apply g_any; intros b. cbn [set_active set_om ex_acc].
    destruct (a ?= b); ball.
Qed.

Lemma b_limit w c n e o : c_max c <= active_capacity -> n + 1 < 2 ^ 64 -> 0 < nl_price o -> 0 < nl_rem o -> bk c n e ->
  gives (bk1 c (n + 1)) (rb_submit_limit_order w c e o).
Proof.
  intros Hm Hn Hp Hq H. assert (H' : books (c_max c) (n + 1) (ex_om e) (ex_active e) (ex_next_id e)) by (apply (books_more _ n); [lia | exact H]).
  unfold rb_submit_limit_order. apply g_any; intros t. cbv zeta. apply g_any; intros [[]|err]; [|bgo].
  apply g_any; intros mid. apply g_any; intros [[]|err]; [|bgo].
  cbn [set_trk ex_next_id ex_ms]. destruct H as (_ & _ & HG & Hi & _). rewrite rcount_in by lia. apply g_ret_bind; cbv beta.
  assert (H2 : books (c_max c) (n + 1) (ex_om e) (ex_active e) (ex_next_id e + 1)) by (apply (books_next _ _ _ _ (ex_next_id e)); [lia | exact H']).
  do 2 (apply g_any; intros ?). bgo; [|bgo]. bgo; [bgo|]. 
  eapply g_bind; [apply (b_append w c (n + 1)); [exact Hm | exact H2 | | unfold good; cbn; lia]|].
  - cbn. intros Hx. unfold ids in Hx. apply in_map_iff in Hx as [x [Hx Hin]]. apply HG in Hin as [Hin _]. lia.
  - intros [e3 res] H3. cbv beta iota. bgo; bgo.
Qed.

Lemma remove_by_books cap n p act nid x act' :
  books cap n act act nid -> remove_by p act = Some (x, act') -> books cap n act' act' nid.
Proof.
  intros (_ & HN & HG & HI & HL) H. apply remove_by_spec in H as (Hin & _ & Hp).
  assert (Hp' : Permutation (ids act) (lo_id x :: ids act')) by (unfold ids; rewrite Hp; reflexivity).
  unfold books. split; [reflexivity|]. split; [apply (Permutation_NoDup Hp') in HN; inversion HN; assumption|].
  split; [intros y Hy; apply HG; eapply Permutation_in; [symmetry; exact Hp | right; exact Hy]|]. split; [exact HI|].
  apply Permutation_length in Hp. cbn [length] in Hp. lia.
Qed.

Lemma b_cancel w c n e b : bk c n e -> gives (bk1 c n) (rb_cancel_limit_order w c e b).
Proof.
  intros H. unfold rb_cancel_limit_order. do 3 (apply g_any; intros ?).
  assert (HE : ex_om e = ex_active e) by apply H.
  assert (HB : books (c_max c) n (ex_active e) (ex_active e) (ex_next_id e)) by (rewrite <- HE at 1; exact H).
  destruct b as [id|id].
  - destruct (remove_by_order_id (ex_active e) id) as [[x act']|] eqn:E; [|bgo].
    cbv zeta. unfold om_remove. cbn [set_active ex_om]. rewrite HE, E. cbn [cbind].
    assert (H1 : books (c_max c) n act' act' (ex_next_id e)) by (eapply remove_by_books; [exact HB | exact E]).
    ball.
  - destruct (remove_by_user_order_id (ex_active e) id) as [[x act']|] eqn:E; [|bgo].
    cbv zeta. unfold om_remove. cbn [set_active ex_om]. rewrite HE, E. cbn [cbind].
    assert (H1 : books (c_max c) n act' act' (ex_next_id e)) by (eapply remove_by_books; [exact HB | exact E]).
    ball.
Qed.

Lemma b_amend w c n e id o : c_max c <= active_capacity -> n + 1 < 2 ^ 64 -> 0 < nl_price o -> bk c n e ->
  gives (bk1 c (n + 1)) (rb_amend_limit_order w c e id o).
Proof.
  intros Hm Hn Hp H. assert (H' : books (c_max c) (n + 1) (ex_om e) (ex_active e) (ex_next_id e)) by (apply (books_more _ n); [lia | exact H]).
  unfold rb_amend_limit_order. bgo; [|bgo]. do 3 (apply g_any; intros ?).
  destruct (Z.leb_spec a1 0).
  - eapply g_bind; [apply (b_cancel w c (n + 1)); exact H'|]. intros [e1 r] H1. cbv beta iota. bgo; [bgo | apply g_panic].
  - unfold set_remaining_quantity. assert (Ep : (0 <? a1) = true) by lia. rewrite Ep. cbn [assert bind cbind].
    eapply g_bind; [apply (b_cancel w c n); exact H|]. intros [e1 r] H1. cbv beta iota.
    destruct r; [apply b_limit; cbn; assumption|].
    apply g_ret. eapply (books_more _ n); [lia | exact H1].
Qed.

(** The loop over the resting orders. *)
Definition loop_ok (l : list Z) (d todo om : list limit_order) (nid : Z) : Prop :=
  NoDup (ids (d ++ todo)) /\ (forall i, In i l -> In i (ids d)) /\ remove_executed l (d ++ todo) = Done om /\
  (forall x, In x om -> good nid x).
Definition one_ok (nid : Z) (d todo : list limit_order) (x : exchange * list Z * limit_order) : Prop :=
  let '(e', l', o') := x in ex_next_id e' = nid /\ loop_ok l' (d ++ [o']) todo (ex_om e') nid.

Lemma order_fill_same w s o q ts : gives (fun x => lo_id (fst x) = lo_id o /\ lo_price (fst x) = lo_price o) (rb_order_fill w s o q ts).
Proof.
  unfold rb_order_fill. do 2 (apply g_any; intros ?). cbv zeta.
  destruct (lo_filled o).
  - apply g_any; intros r. destruct (q =? lo_rem o); apply g_ret; split; reflexivity.
  - do 3 (apply g_any; intros ?). destruct (_ =? 0); apply g_ret; split; reflexivity.
Qed.

Lemma loop_next l d o o' todo om om' nid l' :
  loop_ok l d (o :: todo) om nid -> lo_id o' = lo_id o -> lo_price o' = lo_price o ->
  (l' = l ++ [lo_id o'] /\ om_remove om (ByOrderId (lo_id o')) = Done om') \/
  (l' = l /\ exists cap r, om_update cap om o' = Done (om', r)) ->
  loop_ok l' (d ++ [o']) todo om' nid.
Proof.
  intros (Hn & Hin & Hr & Hg) Hid Hpr Hcase.
  assert (Hno : NoDup (ids d ++ lo_id o :: ids todo)) by (unfold ids in *; rewrite map_app in Hn; exact Hn).
  assert (Hod : ~ In (lo_id o) (ids d)) by (apply NoDup_remove_2 in Hno; intros Hx; apply Hno, in_or_app; auto).
  assert (Hot : ~ In (lo_id o) (ids todo)) by (apply NoDup_remove_2 in Hno; intros Hx; apply Hno, in_or_app; auto).
  assert (Hol : ~ In (lo_id o) l) by auto.
  assert (Hrep : map (upd (lo_id o) o') (d ++ o :: todo) = d ++ o' :: todo).
  { rewrite map_app. cbn [map]. rewrite !upd_notin by assumption. unfold upd. rewrite Z.eqb_refl. reflexivity. }
  assert (Hr' : remove_executed l (d ++ o' :: todo) = Done (map (upd (lo_id o) o') om)).
  { rewrite <- Hrep. apply remove_executed_upd; [exact Hid | exact Hr]. }
  pose proof (remove_executed_spec _ _ _ Hn Hr) as [HnOm HxOm].
  assert (Hoin : In o om) by (apply HxOm; split; [apply in_or_app; right; left; reflexivity | exact Hol]).
  assert (Hn' : NoDup (ids ((d ++ [o']) ++ todo))).
  { rewrite <- app_assoc. cbn [app]. unfold ids in *. rewrite map_app in *. cbn [map] in *. rewrite Hid. exact Hn. }
  assert (Hin' : forall i, In i l -> In i (ids (d ++ [o']))) by (intros i Hi; rewrite ids_app; apply in_or_app; left; auto).
  unfold loop_ok. split; [exact Hn'|].
  destruct Hcase as [(-> & Hom)|(-> & cap & r & Hom)].
  - split; [intros i Hi; apply in_app_or in Hi as [Hi|[<-|[]]]; [auto | rewrite ids_app; apply in_or_app; right; left; reflexivity]|].
    rewrite Hid in Hom. apply om_remove_id_done in Hom as [x Hx]. split.
    + rewrite <- app_assoc. cbn [app]. rewrite remove_executed_app, Hr'. cbn [bind remove_executed]. rewrite Hid.
      rewrite (remove_id_upd_same om (lo_id o) o' x om' HnOm Hid Hx). reflexivity.
    + intros y Hy. apply Hg. apply (remove_id_ids _ _ _ _ HnOm Hx) in Hy. apply Hy.
  - split; [exact Hin'|]. unfold om_update in Hom. apply bind_done in Hom as [[] [Ha Hom]].
    assert (Hpos : 0 < lo_rem o') by (destruct (Z.ltb_spec 0 (lo_rem o')); [assumption | discriminate]).
    assert (Hg' : get_by_id om (lo_id o') = Some o) by (rewrite Hid; apply get_by_id_nodup; assumption).
    rewrite (book_insert_old _ _ _ _ HnOm Hg') in Hom. apply bind_done in Hom as [[] [_ Hom]]. apply bind_done in Hom as [[] [_ Hom]].
    injection Hom as <- _. rewrite Hid. split; [rewrite <- app_assoc; exact Hr'|].
    intros y Hy. apply in_map_iff in Hy as [z [<- Hz]]. pose proof (Hg _ Hz) as Gz. unfold upd.
    destruct (Z.eqb_spec (lo_id z) (lo_id o)); [|exact Gz].
    pose proof (Hg _ Hoin) as Go. unfold good in *. rewrite Hid, Hpr. intuition.
Qed.

Lemma loop_skip l d o todo om nid : loop_ok l d (o :: todo) om nid -> loop_ok l (d ++ [o]) todo om nid.
Proof.
  intros (Hn & Hin & Hr & Hg). unfold loop_ok. rewrite <- app_assoc. cbn [app].
  split; [exact Hn|]. split; [intros i Hi; rewrite ids_app; apply in_or_app; left; auto|]. split; assumption.
Qed.

Lemma b_fill_one w c u e l d o todo nid : ex_next_id e = nid -> loop_ok l d (o :: todo) (ex_om e) nid ->
  gives (one_ok nid d todo) (rb_fill_one w c u e l o).
Proof.
  intros Hi H. unfold rb_fill_one. cbv zeta. apply g_any; intros [q|].
  2:{ apply g_ret. split; [exact Hi | apply loop_skip, H]. }
  do 3 (apply g_any; intros ?).
  eapply g_bind; [apply order_fill_same|]. cbv beta; intros [o' f] [E1 E2]. cbn [fst] in E1, E2.
  apply (g_bind _ (fun x => ex_next_id (fst x) = nid /\ loop_ok (snd x) (d ++ [o']) todo (ex_om (fst x)) nid)).
  - destruct f as [fo|].
    + apply g_any; intros t. destruct (om_remove (ex_om e) (ByOrderId (lo_id o'))) as [om'|p] eqn:E; [|apply g_panic_bind].
      cbn [cbind]. apply g_ret. split; [exact Hi|]. cbn [fst snd set_updates set_om ex_om].
      eapply loop_next; [exact H | exact E1 | exact E2|]. left. auto.
    + do 2 (apply g_any; intros ?). destruct (om_update (c_max c) (ex_om e) o') as [[om' r]|p] eqn:E; [|apply g_panic_bind].
      cbn [cbind]. destruct r; [|apply g_panic]. apply g_ret. split; [exact Hi|]. cbn [fst snd set_updates set_om ex_om].
      eapply loop_next; [exact H | exact E1 | exact E2|]. right. eauto.
  - intros [e1 l1] [Hi1 H1]. cbn [fst snd] in Hi1, H1. do 2 (apply g_any; intros ?). apply g_any; intros [pos acc].
    do 3 (apply g_any; intros ?). apply (g_bind _ (fun x => ex_next_id x = nid /\ ex_om x = ex_om e1)).
    + destruct (_ <? _); [do 2 (apply g_any; intros ?)|]; apply g_ret; split; try exact Hi1; reflexivity.
    + intros e4 [Hi4 H4]. apply g_ret. split; [exact Hi4 | rewrite H4; exact H1].
Qed.

Lemma b_fill_loop w c u nid todo : forall e l d, ex_next_id e = nid -> loop_ok l d todo (ex_om e) nid ->
  gives (fun x => let '(e', l', arena) := x in
    ex_next_id e' = nid /\ loop_ok l' (d ++ arena) [] (ex_om e') nid /\ length arena = length todo) (rb_fill_loop w c u e l todo).
Proof.
  induction todo as [|o todo IH]; intros e l d Hi H; cbn [rb_fill_loop].
  - apply g_ret. rewrite app_nil_r. auto.
  - eapply g_bind; [eapply b_fill_one; eassumption|]. intros [[e1 l1] o'] [Hi1 H1]. cbv beta iota.
    eapply g_bind; [apply (IH e1 l1 (d ++ [o'])); assumption|]. intros [[e2 l2] rest] (Hi2 & H2 & H3). cbv beta iota.
    apply g_ret. split; [exact Hi2|]. rewrite <- app_assoc in H2. split; [exact H2|]. cbn [length]. lia.
Qed.

Lemma b_check w c n e u : bk c n e -> gives (bk c n) (rb_check_active_orders w c e u).
Proof.
  intros H. unfold rb_check_active_orders. cbv zeta. destruct (can_fill u); [|apply g_ret; exact H]. cbn [negb].
  apply g_any; intros _. destruct H as (HE & HN & HG & HI & HL).
  eapply g_bind.
  { apply (b_fill_loop w c u (ex_next_id e) (ex_active e) (set_updates e []) [] []); [reflexivity|].
    unfold loop_ok. cbn [app remove_executed set_updates ex_om]. split; [exact HN|]. split; [intros i []|].
    rewrite HE. split; [reflexivity | exact HG]. }
  cbn [app]. intros [[e1 l] arena] (Hi & (Hn & Hin & Hr & Hg) & Hlen). rewrite app_nil_r in *. cbv beta iota.
  rewrite Hr. apply g_ret_bind; cbv beta. do 4 (apply g_any; intros ?). apply g_ret.
  pose proof (remove_executed_length _ _ _ Hr). destruct (remove_executed_spec _ _ _ Hn Hr) as [Hn1 _].
  unfold bk, books. cbn [set_active ex_om ex_active ex_next_id]. split; [reflexivity|]. split; [exact Hn1|]. rewrite Hi.
  split; [exact Hg|]. split; [exact HI | lia].
Qed.

Lemma b_update w c n e u : n + 1 < 2 ^ 64 -> bk c n e -> gives (bk1 c (n + 1)) (rb_update_state w c e u).
Proof.
  intros Hn H. assert (H' : bk c (n + 1) e) by (apply (books_more _ n); [lia | exact H]).
  unfold rb_update_state. apply g_any; intros ms. cbv zeta. apply g_any; intros t. apply g_any; intros [trig fire].
  apply (g_bind _ (fun x => bk c n x)).
  { destruct fire; [do 3 (apply g_any; intros ?)|]; apply g_ret; exact H. }
  intros e4 H4. apply g_any; intros [[]|err].
  - eapply g_bind; [apply (b_check w c (n + 1)); apply (books_more _ n); [lia | exact H4]|]. intros e5 H5. apply g_ret. exact H5.
  - eapply g_bind; [apply (b_liquidate w c n); assumption|]. intros e5 H5. apply g_ret. exact H5.
Qed.

Lemma b_map_out {A B} c n (f : A -> B) (m : checked (exchange * result error A)) :
  gives (bk1 c n) m -> gives (bk1 c n) (w_map_out f m).
Proof. intros H; unfold w_map_out. eapply g_bind; [exact H|]. intros [e r] H1. apply g_ret. exact H1. Qed.

Lemma b_step w c n e o : c_max c <= active_capacity -> n + 1 < 2 ^ 64 -> bk c n e -> gives (bk1 c (n + 1)) (rb_step w c e o).
Proof.
  intros Hm Hn H. assert (H' : bk c (n + 1) e) by (apply (books_more _ n); [lia | exact H]).
  destruct o as [ru|sd q uid|sd p q uid|b|id sd p q uid|ru]; cbn [rb_step].
  - apply g_any; intros u. apply b_map_out, b_update; assumption.
  - destruct (market_new sd q uid); [apply b_map_out, b_market; assumption | apply g_ret; exact H'].
  - destruct (limit_new sd p q uid) eqn:E; [|apply g_ret; exact H'].
    apply limit_new_ok in E as [[Hp Hq] _]. apply b_map_out, b_limit; assumption.
  - apply b_map_out. apply b_cancel, H'.
  - destruct (limit_new sd p q uid) eqn:E; [|apply g_ret; exact H'].
    apply limit_new_ok in E as [[Hp Hq] _]. apply b_map_out, b_amend; assumption.
  - apply g_any; intros u. eapply g_bind; [apply b_check, H'|]. intros e1 H1. apply g_ret. exact H1.
Qed.

Lemma b_run w c ops : c_max c <= active_capacity -> forall n e, n + Z.of_nat (length ops) < 2 ^ 64 -> bk c n e ->
  gives (bk1 c (n + Z.of_nat (length ops))) (rb_run w c e ops).
Proof.
  intros Hm. induction ops as [|o ops IH]; intros n e Hn H; cbn [rb_run length] in *.
  - apply g_ret. rewrite Z.add_0_r. exact H.
  - rewrite Nat2Z.inj_succ in *. eapply g_bind; [apply (b_step w c n e o Hm); [lia | exact H]|]. intros [e1 r] H1. cbv beta iota.
    eapply g_bind; [apply (IH (n + 1) e1); [lia | exact H1]|]. intros [e2 rs] H2. apply g_ret.
    eapply (books_more _ _); [|exact H2]. lia.
Qed.

Lemma b_init w c : 0 <= c_max c -> gives (bk c 0) (rb_init w c).
Proof.
  intros Hm. unfold rb_init, rb_exchange_new. apply g_any; intros t. apply g_any; intros a. apply g_any; intros i. apply g_ret.
  unfold bk, books. cbn [ex_om ex_active ex_next_id length]. split; [reflexivity|]. split; [constructor|].
  split; [intros x []|]. lia.
Qed.
