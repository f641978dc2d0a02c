(** Proofs about account trackers of any type. *)
From Verif Require Import ProofBase BookLemmas StepLemmas Untracked SpecQuiet UntrackedProof Tracked Spec SpecMarket SpecTracked MarketProof.

(** ** Every tracker is told the same *)
Definition told_by {X} (m : outcome X) (f : forall T (hook : T -> event -> outcome T), @tm T X) : Prop :=
  match m with
  | Done x => exists evs, forall T (hook : T -> event -> outcome T) t, f T hook t = (t' <- replay hook t evs ;; Done (t', x))
  | Panic p => forall T (hook : T -> event -> outcome T) t, exists p', f T hook t = Panic p' /\ (never_panics hook -> p' = p)
  end.

Lemma replay_app {T} (hook : T -> event -> outcome T) a : forall b t, replay hook t (a ++ b) = (t1 <- replay hook t a ;; replay hook t1 b).
Proof. induction a as [|ev a IH]; intros; cbn [app replay bind]; [reflexivity|]. destruct (hook t ev); cbn [bind]; [apply IH | reflexivity]. Qed.
Lemma replay_total {T} (hook : T -> event -> outcome T) l : never_panics hook -> forall t, exists t', replay hook t l = Done t'.
Proof. intros H. induction l as [|ev l IH]; intros t; cbn [replay]; [eauto|]. destruct (H t ev) as [t1 ->]. cbn [bind]. apply IH. Qed.

Lemma told_ret {X} (x : X) : told_by (Done x) (fun T hook => tret x).
Proof. exists []. reflexivity. Qed.
Lemma told_lift {X} (m : outcome X) : told_by m (fun T hook => tlift m).
Proof. destruct m; [exists []; reflexivity | intros; eexists; split; [reflexivity | auto]]. Qed.
Lemma told_bind {A B} (m : outcome A) (k : A -> outcome B) f g :
  told_by m f -> (forall a, m = Done a -> told_by (k a) (fun T hook => g T hook a)) ->
  told_by (bind m k) (fun T hook => tbind (f T hook) (g T hook)).
Proof.
  intros H1 H2. destruct m as [a|p]; cbn [bind told_by] in *.
  - destruct H1 as [evs H1]. specialize (H2 a eq_refl). destruct (k a) as [b|p]; cbn [told_by] in *.
    + destruct H2 as [evs2 H2]. exists (evs ++ evs2). intros T hook t. unfold tbind. rewrite H1, replay_app.
      destruct (replay hook t evs); cbn [bind]; [apply H2 | reflexivity].
    + intros T hook t. unfold tbind. rewrite H1. destruct (replay hook t evs) as [t1|p1] eqn:E; cbn [bind]; [apply H2|].
      exists p1. split; [reflexivity|]. intros N. destruct (replay_total hook evs N t) as [? E']. congruence.
  - intros T hook t. destruct (H1 T hook t) as (p' & E & N). exists p'. unfold tbind. rewrite E. split; [reflexivity | exact N].
Qed.
Lemma told_same {A B} (m : outcome A) (k : A -> outcome B) g :
  (forall a, m = Done a -> told_by (k a) (fun T hook => g T hook a)) ->
  told_by (bind m k) (fun T hook => tbind (tlift m) (g T hook)).
Proof. intros H. apply (told_bind m k (fun T hook => tlift m) g); [apply told_lift | exact H]. Qed.
Lemma told_tell {B} ev (m : outcome B) g :
  told_by m (fun T hook => g T hook tt) -> told_by m (fun T hook => tbind (tell hook ev) (g T hook)).
Proof.
  intros H. change m with (bind (Done tt) (fun _ => m)). apply (told_bind (Done tt) (fun _ => m) (fun T hook => tell hook ev) g).
  - exists [ev]. intros T hook t. unfold tell. cbn [replay bind]. destruct (hook t ev); reflexivity.
  - intros [] _. exact H.
Qed.

Ltac open_it a := match type of a with unit => destruct a | result _ _ => destruct a | (_ * _)%type => destruct a | _ => idtac end.
Ltac tk1 :=
  match goal with
  | |- told_by (Done ?x) (fun _ _ => tret ?x) => apply (told_ret x)
  | |- told_by ?m (fun _ _ => tlift ?m) => apply (told_lift m)
  | |- told_by _ (fun T hook => tbind (tell hook ?ev) (@?g T hook)) => apply (told_tell ev _ g); cbv beta
  | |- told_by (bind ?m ?k) (fun T hook => tbind (tlift ?m) (@?g T hook)) => apply (told_same m k g); let a := fresh "a" in intros a _; cbv beta; open_it a; cbv iota
  | |- told_by (match ?x with _ => _ end) (fun T hook => match ?x with _ => _ end) => destruct x
  end.
Ltac tkgo := cbv zeta; repeat (tk1; cbv zeta).

Lemma k_settle c e o : told_by (q_settle_filled_market_order c e o) (fun T hook => t_settle_filled_market_order hook c e o).
Proof. unfold q_settle_filled_market_order, t_settle_filled_market_order. tkgo. Qed.
Lemma k_market c e o : told_by (q_submit_market_order c e o) (fun T hook => t_submit_market_order hook c e o).
Proof.
  unfold q_submit_market_order, t_submit_market_order. tkgo.
  apply (told_bind _ _ (fun T hook => t_settle_filled_market_order hook c (put_next_id e (qx_next_id e + 1)) _) (fun T hook e3 => tret (e3, Ok _))); [apply k_settle|].
  intros x _. apply told_ret.
Qed.
Lemma k_liq c e : told_by (q_liquidate c e) (fun T hook => t_liquidate hook c e).
Proof.
  unfold q_liquidate, t_liquidate. apply told_same. intros o _.
  apply (told_bind _ _ (fun T hook => t_submit_market_order hook c e o)
           (fun T hook x => match x with (e1, r) => match r with Ok _ => tret e1 | Err _ => tlift (Panic PLiquidateSubmit) end end)); [apply k_market|].
  intros [e1 r] _. cbv beta iota. tkgo.
Qed.
Lemma k_submit c e o : told_by (q_submit_limit_order c e o) (fun T hook => t_submit_limit_order hook c e o).
Proof. unfold q_submit_limit_order, t_submit_limit_order. tkgo. Qed.
Lemma k_cancel c e b : told_by (q_cancel_limit_order c e b) (fun T hook => t_cancel_limit_order hook c e b).
Proof. unfold q_cancel_limit_order, t_cancel_limit_order. tkgo. Qed.
Lemma k_amend c e i o : told_by (q_amend_limit_order c e i o) (fun T hook => t_amend_limit_order hook c e i o).
Proof.
  unfold q_amend_limit_order, t_amend_limit_order. destruct (get_by_id (qx_active e) i) as [x|]; [|apply told_ret].
  apply told_same. intros n _. cbv zeta. destruct (_ <=? 0).
  - apply (told_bind _ _ (fun T hook => t_cancel_limit_order hook c e (ByOrderId i))
             (fun T hook y => match y with (e1, r) => match r with Ok _ => tret (e1, Err EAmendQtyAlreadyFilled) | Err _ => tlift (Panic PAmendCancel) end end)); [apply k_cancel|].
    intros [e1 r] _. cbv beta iota. tkgo.
  - apply told_same. intros o' _.
    apply (told_bind _ _ (fun T hook => t_cancel_limit_order hook c e (ByOrderId i))
             (fun T hook y => match y with (e1, r) => match r with Err err => tret (e1, Err err) | Ok _ => t_submit_limit_order hook c e1 o' end end)); [apply k_cancel|].
    intros [e1 r] _. cbv beta iota. destruct r; [apply k_submit | apply told_ret].
Qed.
Lemma k_fill c u e ids o : told_by (q_fill_one c u e ids o) (fun T hook => t_fill_one hook c u e ids o).
Proof.
  unfold q_fill_one, t_fill_one. cbv zeta. apply told_same. intros [q|] _; [|apply told_ret].
  do 2 (apply told_same; intros ? _). apply told_same. intros [o' fl] _.
  match goal with |- told_by (bind ?m ?k) (fun T hook => tbind (@?f T hook) (@?g T hook)) => apply (told_bind m k f g) end.
  - destruct fl; tkgo.
  - intros [e1 ids1] _. cbv beta iota. tkgo.
Qed.
Lemma k_loop c u : forall l e ids, told_by (q_fill_loop c u e ids l) (fun T hook => t_fill_loop hook c u e ids l).
Proof.
  induction l as [|o l IH]; intros; cbn [q_fill_loop t_fill_loop]; [apply told_ret|].
  match goal with |- told_by (bind ?m ?k) (fun T hook => tbind (@?f T hook) (@?g T hook)) => apply (told_bind m k f g) end; [apply k_fill|].
  intros [[e1 ids1] o'] _. cbv beta iota.
  match goal with |- told_by (bind ?m ?k) (fun T hook => tbind (@?f T hook) (@?g T hook)) => apply (told_bind m k f g) end; [apply IH|].
  intros [[e2 ids2] r'] _. cbv beta iota. apply told_ret.
Qed.
Lemma k_check c e u : told_by (q_check_active_orders c e u) (fun T hook => t_check_active_orders hook c e u).
Proof.
  unfold q_check_active_orders, t_check_active_orders. cbv zeta. destruct (negb (can_fill u)); [apply told_ret|].
  apply told_same. intros _ _.
  match goal with |- told_by (bind ?m ?k) (fun T hook => tbind (@?f T hook) (@?g T hook)) => apply (told_bind m k f g) end; [apply k_loop|].
  intros [[e1 ids] arena] _. cbv beta iota. tkgo.
Qed.
Lemma k_update c e u : told_by (q_update_state c e u) (fun T hook => t_update_state hook c e u).
Proof.
  unfold q_update_state, t_update_state. apply told_same. intros m _. cbv zeta.
  match goal with |- told_by _ (fun T hook => tbind (tell hook ?ev) (@?g T hook)) => apply (told_tell ev _ g); cbv beta end.
  destruct (should_trigger _ _) as [tr fire].
  assert (E : forall x : quiet, (if fire then x else x) = x) by (destruct fire; reflexivity). rewrite E. clear E.
  assert (K : forall (X : outcome (quiet * result error (list order_update))) b (g : forall T (hook : T -> event -> outcome T), tm (quiet * result error (list order_update))),
            told_by X g -> told_by X (fun T hook => tbind (if fire then tell hook b else tret tt) (fun _ => g T hook))).
  { intros X b g H. destruct fire; [apply (told_tell b X (fun T hook _ => g T hook)); exact H|].
    change X with (bind (Done tt) (fun _ => X)). apply (told_bind (Done tt) (fun _ => X) (fun T hook => tret tt) (fun T hook _ => g T hook)); [apply told_ret | intros _ _; exact H]. }
  apply K. clear K. destruct (check_maintenance_margin _ _ _ _).
  - match goal with |- told_by (bind ?m ?k) (fun T hook => tbind (@?f T hook) (@?g T hook)) => apply (told_bind m k f g) end; [apply k_check|]. intros x _. apply told_ret.
  - match goal with |- told_by (bind ?m ?k) (fun T hook => tbind (@?f T hook) (@?g T hook)) => apply (told_bind m k f g) end; [apply k_liq|]. intros x _. apply told_ret.
Qed.
Lemma k_map {E A B} (f : A -> B) (m : outcome (quiet * result E A)) g :
  told_by m g -> told_by (map_out f m) (fun T hook => tmap_out f (g T hook)).
Proof.
  intros H. unfold map_out, tmap_out. apply (told_bind m _ g (fun T hook x => match x with (e, r) => tret (e, map_result f r) end)); [exact H|].
  intros [e r] _. apply told_ret.
Qed.
Lemma k_step c e o : told_by (q_step c e o) (fun T hook => t_step hook c e o).
Proof.
  unfold q_step, t_step. destruct o as [ru|sd q uid|sd p q uid|b|i sd p q uid|ru].
  - apply told_same. intros u _. apply (k_map OutUpdates _ (fun T hook => t_update_state hook c e u)), k_update.
  - destruct (market_new sd q uid) as [m|]; [apply (k_map OutMarket _ (fun T hook => t_submit_market_order hook c e m)), k_market | apply told_ret].
  - destruct (limit_new sd p q uid) as [l|]; [apply (k_map OutLimit _ (fun T hook => t_submit_limit_order hook c e l)), k_submit | apply told_ret].
  - apply (k_map OutLimit _ (fun T hook => t_cancel_limit_order hook c e b)), k_cancel.
  - destruct (limit_new sd p q uid) as [l|]; [apply (k_map OutLimit _ (fun T hook => t_amend_limit_order hook c e i l)), k_amend | apply told_ret].
  - apply told_same. intros u _.
    match goal with |- told_by (bind ?m ?k) (fun T hook => tbind (@?f T hook) (@?g T hook)) => apply (told_bind m k f g) end; [apply k_check|]. intros x _. apply told_ret.
Qed.

(** ** What exactly: the tracker that writes everything down *)
Definition record (l : list event) (ev : event) : outcome (list event) := Done (l ++ [ev]).
Lemma replay_record evs : forall l, replay record l evs = Done (l ++ evs).
Proof. induction evs as [|ev evs IH]; intros l; cbn [replay record bind]; [rewrite app_nil_r; reflexivity|]. rewrite IH, <- app_assoc. reflexivity. Qed.

Lemma k_record {X} (m : outcome X) f x l l' : told_by m f -> f _ record l = Done (l', x) ->
  m = Done x /\ exists evs, l' = l ++ evs /\ forall T (hook : T -> event -> outcome T) t, f T hook t = (t' <- replay hook t evs ;; Done (t', x)).
Proof.
  intros H E. destruct m as [y|p]; cbn [told_by] in H.
  - destruct H as [evs H]. pose proof (H _ record l) as H0. rewrite E, replay_record in H0. cbn [bind] in H0. injection H0 as -> ->.
    split; [reflexivity|]. exists evs. split; [reflexivity | exact H].
  - destruct (H _ record l) as (p' & E' & _). congruence.
Qed.

Lemma tlift_inv {A B T} (m : outcome A) (k : A -> @tm T B) t x : tbind (tlift m) k t = Done x -> exists a, m = Done a /\ k a t = Done x.
Proof. unfold tbind, tlift. destruct m; cbn [bind]; [eauto | discriminate]. Qed.
Lemma tell_inv {B} ev (k : unit -> @tm (list event) B) l x : tbind (tell record ev) k l = Done x -> k tt (l ++ [ev]) = Done x.
Proof. intros H. exact H. Qed.
Lemma tbind_inv {A B T} (m : @tm T A) (k : A -> @tm T B) t x : tbind m k t = Done x -> exists t1 a, m t = Done (t1, a) /\ k a t1 = Done x.
Proof. unfold tbind. destruct (m t) as [[t1 a]|]; cbn [bind]; [eauto | discriminate]. Qed.
Ltac ti H :=
  repeat (cbv beta zeta iota in H;
    match type of H with
    | tbind (tlift _) _ _ = Done _ => let a := fresh "a" in let E := fresh "E" in apply tlift_inv in H as (a & E & H); open_it a; cbv beta iota in H
    | tbind (tell record _) _ _ = Done _ => apply tell_inv in H
    | tret _ _ = Done _ => unfold tret in H
    end).

Lemma r_settle c e o l l' e' : t_settle_filled_market_order record c e o l = Done (l', e') -> l' = l ++ [EvMarketFilled; EvTrade (fm_side o) (fm_avg o) (fm_qty o)].
Proof. unfold t_settle_filled_market_order. intros H. ti H. injection H as <- _. rewrite <- app_assoc. reflexivity. Qed.
Lemma r_market c e o l l' e' r : t_submit_market_order record c e o l = Done (l', (e', r)) ->
  l' = l ++ market_told (qx_ms e) (nm_side o) (nm_qty o) (nm_uid o) (is_ok r).
Proof.
  unfold t_submit_market_order, market_told. intros H. ti H; [|injection H as <- _ <-; destruct o; reflexivity ..].
  apply tbind_inv in H as (l1 & e1 & H & H1). apply r_settle in H. injection H1 as <- _ <-. rewrite H, <- app_assoc. destruct o as [? [] ?]; reflexivity.
Qed.
Lemma r_liq c e l l' e' : t_liquidate record c e l = Done (l', e') ->
  l' = l ++ market_told (qx_ms e) (if 0 <? position_quantity (qx_pos e) then Sell else Buy) (Z.abs (position_quantity (qx_pos e))) 0 true.
Proof.
  unfold t_liquidate. intros H. apply tlift_inv in H as (o & Ho & H). apply tbind_inv in H as (l1 & [e1 r] & H & H1).
  apply r_market in H. destruct r; [|discriminate]. injection H1 as <- _. rewrite H. clear H. cbn [is_ok].
  destruct (qx_pos e) as [|i|i]; cbn [position_quantity]; [discriminate| |]; unfold market_new in Ho; destruct (Z.leb_spec (pi_qty i) 0); try discriminate; injection Ho as <-; cbn [nm_side nm_qty nm_uid].
  - destruct (Z.ltb_spec 0 (pi_qty i)); [|lia]. rewrite Z.abs_eq by lia. reflexivity.
  - destruct (Z.ltb_spec 0 (- pi_qty i)); [lia|]. rewrite Z.abs_opp, Z.abs_eq by lia. reflexivity.
Qed.
Lemma r_submit c e o l l' e' r : t_submit_limit_order record c e o l = Done (l', (e', r)) -> l' = l ++ [EvLimitSubmitted o].
Proof.
  unfold t_submit_limit_order. intros H. ti H; [|injection H as <- _ _; reflexivity ..]. destruct (marketable _ _); [ti H; injection H as <- _ _; reflexivity|].
  ti H. match goal with x : result error unit |- _ => destruct x end; ti H; injection H as <- _ _; reflexivity.
Qed.
Lemma r_cancel c e b l l' e' r : t_cancel_limit_order record c e b l = Done (l', (e', r)) -> l' = l ++ (if is_ok r then [EvCancelled] else []).
Proof.
  unfold t_cancel_limit_order. intros H. ti H.
  destruct b.
  - destruct (remove_by_order_id _ _) as [[o act]|]; ti H; inversion H; subst; cbn [is_ok]; rewrite ?app_nil_r; reflexivity.
  - destruct (remove_by_user_order_id _ _) as [[o act]|]; ti H; inversion H; subst; cbn [is_ok]; rewrite ?app_nil_r; reflexivity.
Qed.

Lemma r_amend c e i o l l' e' r : t_amend_limit_order record c e i o l = Done (l', (e', r)) ->
  l' = l ++ match find (fun x => lo_id x =? i) (qx_active e) with
            | None => []
            | Some x => EvCancelled :: (if 0 <? nl_rem o - lo_filled_qty x
                                        then [EvLimitSubmitted {| nl_uid := nl_uid o; nl_side := nl_side o; nl_price := nl_price o; nl_rem := nl_rem o - lo_filled_qty x |}]
                                        else [])
            end.
Proof.
  unfold t_amend_limit_order, get_by_id. intros H. destruct (find _ _) as [x|] eqn:F; [|ti H; injection H as <- _ _; rewrite app_nil_r; reflexivity].
  apply tlift_inv in H as (n & Hn & H). cbv zeta in H.
  assert (En : lo_rem x + (nl_rem o - n) = nl_rem o - lo_filled_qty x).
  { unfold lo_total_quantity in Hn. apply bind_done in Hn as [? [_ Hn]]. injection Hn as <-. unfold lo_filled_qty. destruct (lo_filled x); lia. }
  rewrite En in H. destruct (Z.leb_spec (nl_rem o - lo_filled_qty x) 0) as [L1|L1]; (destruct (Z.ltb_spec 0 (nl_rem o - lo_filled_qty x)) as [L2|L2]; [try lia|try lia]).
  - apply tbind_inv in H as (l1 & [e1 r1] & H & H1). apply r_cancel in H. destruct r1; [|discriminate]. ti H1. injection H1 as <- _ _. exact H.
  - apply tlift_inv in H as (o' & Ho & H). apply tbind_inv in H as (l1 & [e1 r1] & H & H1).
    assert (Ok1 : is_ok r1 = true).
    { destruct r1 as [y|err]; [reflexivity|]. exfalso. unfold t_cancel_limit_order in H. ti H.
      assert (G : exists z, remove_by_order_id (qx_active e) i = Some z) by (destruct (remove_by_order_id (qx_active e) i) eqn:G; [eauto|]; unfold remove_by_order_id in G; rewrite remove_by_none in G; congruence).
      destruct G as [[z act] G]. rewrite G in H. ti H. discriminate. }
    apply r_cancel in H. rewrite Ok1 in H. destruct r1; [|discriminate]. apply r_submit in H1. rewrite H1, H, <- app_assoc. cbn [app].
    unfold set_remaining_quantity in Ho. apply bind_done in Ho as [? [_ Ho]]. injection Ho as <-. reflexivity.
Qed.

Lemma order_fill_same s o q ts o' fl : order_fill s o q ts = Done (o', fl) ->
  lo_price o' = lo_price o /\ lo_side o' = lo_side o /\ (match fl with Some _ => true | None => false end) = (q =? lo_rem o).
Proof.
  unfold order_fill. intros H. apply bind_done in H as [? [_ H]]. apply bind_done in H as [? [_ H]]. destruct (lo_filled o).
  - destruct (Z.eqb_spec q (lo_rem o)); injection H as <- <-; auto.
  - apply bind_done in H as [? [_ H]]. destruct (Z.eqb_spec (lo_rem o - q) 0), (Z.eqb_spec q (lo_rem o)); injection H as <- <-; try lia; auto.
Qed.
Lemma r_fill c u e ids o l l' x : t_fill_one record c u e ids o l = Done (l', x) ->
  exists f, limit_order_filled (c_dbg c) u o = Done f /\
    l' = l ++ match f with Some q => [EvLimitFilled (q =? lo_rem o) q; EvTrade (lo_side o) (lo_price o) q] | None => [] end.
Proof.
  unfold t_fill_one. intros H. apply tlift_inv in H as (f & Hf & H). exists f. split; [exact Hf|].
  destruct f as [q|]; [|ti H; inversion H; rewrite app_nil_r; reflexivity]. cbv zeta in H.
  apply tlift_inv in H as (? & _ & H). apply tlift_inv in H as (? & _ & H). apply tlift_inv in H as ([o' fl] & Ho & H).
  apply order_fill_same in Ho as (<- & <- & <-). apply tbind_inv in H as (l1 & [e1 ids1] & H1 & H).
  assert (E : l1 = l ++ [EvLimitFilled match fl with Some _ => true | None => false end q]).
  { destruct fl; ti H1; [inversion H1; reflexivity|]. match goal with x : result error unit |- _ => destruct x end; ti H1; inversion H1; reflexivity. }
  ti H. inversion H. rewrite E, <- app_assoc. reflexivity.
Qed.
Lemma r_loop c ru u : build_update (c_dbg c) ru = Done u -> forall todo e ids l l' x,
  t_fill_loop record c u e ids todo l = Done (l', x) -> l' = l ++ flat_map (fill_told ru) todo.
Proof.
  intros Hu. induction todo as [|o todo IH]; intros e ids l l' x H; cbn [t_fill_loop flat_map] in *.
  - ti H. inversion H. rewrite app_nil_r. reflexivity.
  - apply tbind_inv in H as (l1 & [[e1 ids1] o'] & H1 & H). apply tbind_inv in H as (l2 & [[e2 ids2] r'] & H2 & H).
    apply IH in H2. apply r_fill in H1 as (f & Hf & H1). apply (fillq_touched _ _ _ _ _ Hu) in Hf. ti H. inversion H. subst l'.
    rewrite H2, H1, Hf, <- app_assoc. reflexivity.
Qed.
Lemma r_check c ru u e l l' e' : build_update (c_dbg c) ru = Done u ->
  t_check_active_orders record c e u l = Done (l', e') -> l' = l ++ flat_map (fill_told ru) (qx_active e).
Proof.
  intros Hu. unfold t_check_active_orders. intros H. cbv zeta in H. destruct (can_fill u) eqn:Hc; cbn [negb] in H.
  - apply tlift_inv in H as (? & _ & H). apply tbind_inv in H as (l1 & [[e1 ids1] ar] & H1 & H). apply (r_loop _ _ _ Hu) in H1.
    ti H. inversion H. subst. reflexivity.
  - ti H. inversion H. subst. destruct ru; cbn [build_update] in Hu; try (injection Hu as <-; cbn in Hc; try discriminate).
    + assert (E : flat_map (fill_told (RBba b)) (qx_active e) = []) by (induction (qx_active e); cbn; [reflexivity | assumption]). rewrite E, app_nil_r. reflexivity.
    + apply bind_done in Hu as [? [_ Hu]]. injection Hu as <-. discriminate.
Qed.
Lemma moved_market c ru u m m' :
  build_update (c_dbg c) ru = Done u -> market_update_state (c_dbg c) (ct_pf (c_spec c)) u m = Done m' -> m' = moved ru m.
Proof.
  intros Hu H. unfold market_update_state in H. apply bind_done in H as [? [_ H]]. injection H as <-.
  destruct (quote_of_update _ _ _ m Hu) as [-> ->]. rewrite (time_of_update _ _ _ Hu). unfold moved, quote_after.
  assert (E : ms_step (update_market_state u m) = ms_step m) by (destruct u; reflexivity). rewrite E. destruct (quote_of ru) as [[? ?]|]; reflexivity.
Qed.
Lemma r_update c ru u e l l' e' r : build_update (c_dbg c) ru = Done u ->
  t_update_state record c e u l = Done (l', (e', r)) -> l' = l ++ told e (OpUpdate ru) (map_result OutUpdates r).
Proof.
  intros Hu. unfold t_update_state. intros H. apply tlift_inv in H as (m & Hm & H). apply (moved_market _ _ _ _ _ Hu) in Hm. cbv zeta in H.
  apply tell_inv in H. cbn [told]. cbv zeta. cbn [put_ms qx_ms qx_trig] in H. rewrite (time_of_update _ _ _ Hu) in H.
  assert (F : snd (should_trigger (qx_trig e) (time_of ru)) = sample_due (qx_trig e) (time_of ru)).
  { unfold should_trigger, sample_due. destruct (tg_init (qx_trig e)); [reflexivity|]. cbn [orb]. destruct (_ <=? _); reflexivity. }
  destruct (should_trigger (qx_trig e) (time_of ru)) as [tr fire]. cbn [snd] in F. rewrite <- F. rewrite <- Hm.
  apply tbind_inv in H as (l1 & [] & H1 & H).
  assert (E : l1 = l ++ EvMarket m :: (if fire then [EvBalances (q_balances e) (Z.quot (ms_bid m + ms_ask m) 2)] else [])).
  { destruct fire; [unfold tell, record in H1; cbn [bind] in H1|ti H1]; inversion H1; [rewrite <- app_assoc|]; reflexivity. }
  clear H1. destruct (check_maintenance_margin _ _ _ _).
  - apply tbind_inv in H as (l2 & e2 & H2 & H). apply (r_check _ _ _ _ _ _ _ Hu) in H2. ti H. inversion H. subst. cbn [map_result is_ok].
    rewrite <- app_assoc. reflexivity.
  - apply tbind_inv in H as (l2 & e2 & H2 & H). apply r_liq in H2. ti H. injection H as <- _ <-. rewrite H2, E. cbn [map_result is_ok].
    rewrite <- app_assoc. reflexivity.
Qed.
Lemma r_step c e o l l' e' r : t_step record c e o l = Done (l', (e', r)) -> l' = l ++ told e o r.
Proof.
  unfold t_step. intros H. destruct o as [ru|sd q uid|sd p q uid|b|i sd p q uid|ru].
  - apply tlift_inv in H as (u & Hu & H). apply tbind_inv in H as (l1 & [e1 r1] & H1 & H). ti H. inversion H. subst. apply (r_update _ _ _ _ _ _ _ _ Hu H1).
  - cbn [told]. unfold market_new in H. destruct (Z.leb_spec q 0) as [Lq1|Lq1], (Z.ltb_spec 0 q) as [Lq2|Lq2]; try lia; [ti H; inversion H; rewrite app_nil_r; reflexivity|].
    apply tbind_inv in H as (l1 & [e1 r1] & H1 & H). apply r_market in H1. ti H. injection H as <- _ <-. rewrite H1. destruct r1; reflexivity.
  - cbn [told]. unfold limit_new in H. destruct (Z.leb_spec p 0) as [Lp1|Lp1], (Z.ltb_spec 0 p) as [Lp2|Lp2]; try lia; cbn [andb]; [ti H; inversion H; rewrite app_nil_r; reflexivity|].
    destruct (Z.leb_spec q 0) as [Lq1|Lq1], (Z.ltb_spec 0 q) as [Lq2|Lq2]; try lia; [ti H; inversion H; rewrite app_nil_r; reflexivity|].
    apply tbind_inv in H as (l1 & [e1 r1] & H1 & H). apply r_submit in H1. ti H. injection H as <- _ _. exact H1.
  - apply tbind_inv in H as (l1 & [e1 r1] & H1 & H). apply r_cancel in H1. ti H. injection H as <- _ <-. rewrite H1. destruct r1; reflexivity.
  - cbn [told]. unfold limit_new in H. destruct (Z.leb_spec p 0) as [Lp1|Lp1], (Z.ltb_spec 0 p) as [Lp2|Lp2]; try lia; cbn [andb]; [ti H; inversion H; rewrite app_nil_r; reflexivity|].
    destruct (Z.leb_spec q 0) as [Lq1|Lq1], (Z.ltb_spec 0 q) as [Lq2|Lq2]; try lia; [ti H; inversion H; rewrite app_nil_r; reflexivity|].
    apply tbind_inv in H as (l1 & [e1 r1] & H1 & H). apply r_amend in H1. ti H. injection H as <- _ _. exact H1.
  - apply tlift_inv in H as (u & Hu & H). apply tbind_inv in H as (l1 & e1 & H1 & H). apply (r_check _ _ _ _ _ _ _ Hu) in H1. ti H. injection H as <- _ _. exact H1.
Qed.

(** ** The theorems *)
Lemma told_step c e o e' r : q_step c e o = Done (e', r) ->
  forall T (hook : T -> event -> outcome T) t, t_step hook c e o t = (t' <- replay hook t (told e o r) ;; Done (t', (e', r))).
Proof.
  intros H. pose proof (k_step c e o) as K. unfold told_by in K. rewrite H in K. destruct K as [evs K].
  pose proof (K _ record []) as K0. rewrite replay_record in K0. cbn [app bind] in K0. pose proof (r_step _ _ _ _ _ _ _ K0) as E. cbn [app] in E. subst evs. exact K.
Qed.
Lemma told_step_panic c e o p : q_step c e o = Panic p ->
  forall T (hook : T -> event -> outcome T) t, exists p', t_step hook c e o t = Panic p' /\ (never_panics hook -> p' = p).
Proof. intros H. pose proof (k_step c e o) as K. unfold told_by in K. rewrite H in K. exact K. Qed.

Lemma told_run c : forall ops e e' outs, q_run c e ops = Done (e', outs) ->
  forall T (hook : T -> event -> outcome T) t, t_run hook c e ops t = (t' <- replay hook t (told_all c e ops) ;; Done (t', (e', outs))).
Proof.
  induction ops as [|o ops IH]; intros e e' outs H T hook t; cbn [q_run t_run told_all] in *.
  - injection H as <- <-. reflexivity.
  - apply bind_done in H as [[e1 r] [H1 H]]. apply bind_done in H as [[e2 rs] [H2 H]]. injection H as <- <-. rewrite H1.
    unfold tbind. rewrite (told_step _ _ _ _ _ H1), replay_app. destruct (replay hook t (told e o r)); cbn [bind]; [|reflexivity].
    rewrite (IH _ _ _ H2). destruct (replay hook a (told_all c e1 ops)); reflexivity.
Qed.
Lemma told_run_panic c : forall ops e p, q_run c e ops = Panic p ->
  forall T (hook : T -> event -> outcome T) t, exists p', t_run hook c e ops t = Panic p' /\ (never_panics hook -> p' = p).
Proof.
  induction ops as [|o ops IH]; intros e p H T hook t; cbn [q_run t_run] in *; [discriminate|]. unfold tbind.
  destruct (q_step c e o) as [[e1 r]|p1] eqn:E; cbn [bind] in H.
  - rewrite (told_step _ _ _ _ _ E). destruct (replay hook t (told e o r)) as [t1|p1] eqn:R; cbn [bind].
    + destruct (q_run c e1 ops) as [[e2 rs]|p2] eqn:E2; cbn [bind] in H; [discriminate|]. injection H as <-.
      destruct (IH _ _ E2 T hook t1) as (p' & -> & N). cbn [bind]. eauto.
    + exists p1. split; [reflexivity|]. intros N. destruct (replay_total hook (told e o r) N t). congruence.
  - injection H as <-. destruct (told_step_panic _ _ _ _ E T hook t) as (p' & -> & N). cbn [bind]. eauto.
Qed.
