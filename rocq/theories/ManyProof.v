(** More than 10000 resting orders. *)
From Coq Require Import Permutation.
From Verif Require Import ProofBase BookLemmas StepLemmas FillLemmas OpLemmas Inv Spec SpecBook SpecRules SpecMargin SpecConfig SpecPanic SpecEntry
  Scenario ScenarioPanic ScenarioEntry
  LedgerProof FilterProof MarginProof EntryProof BookProof OrderProof SoundProof PanicProof PanicCor LimitProof.

Lemma history_snoc c ops e outs o e' r : history c ops e outs -> step c e o = Done (e', r) -> history c (ops ++ [o]) e' (outs ++ [r]).
Proof.
  intros (e0 & Hi & Hr) Hs. exists e0. split; [exact Hi|]. apply run_app. exists e, outs, [r]. split; [exact Hr|]. split; [|reflexivity].
  apply run_single. eauto.
Qed.

Definition same_buys (b : list limit_order) : Prop := forall o, In o b -> lo_side o = Buy /\ lo_price o = d 100 /\ lo_rem o = d 1.

Lemma many_pairs b : same_buys b -> pairs Buy b = map (fun _ => (d 100, d 1)) b /\ pairs Sell b = [].
Proof.
  induction b as [|o b IH]; intros H; [split; reflexivity|].
  destruct IH as [IH1 IH2]; [intros x Hx; apply H; right; exact Hx|]. destruct (H o (or_introl eq_refl)) as (E1 & E2 & E3).
  unfold pairs in *. cbn [flat_map map]. rewrite IH1, IH2, E1, E2, E3. split; reflexivity.
Qed.

Lemma many_req dbg max b : same_buys b -> req (many dbg max) b Neutral = Z.of_nat (length b) * d 100.
Proof.
  intros H. destruct (many_pairs b H) as [H1 H2]. unfold req, requirement. cbn [position_quantity]. change (Z.max 0 (- 0)) with 0. change (Z.max 0 0) with 0.
  assert (Hg : good_book b) by (intros o Ho; destruct (H o Ho) as (_ & -> & ->); split; reflexivity).
  rewrite (hedge_zero_cost _ _ _ (pairs Buy b) (good_pos_list Buy b Hg) (proj1 (sorted_arranged Buy b))).
  rewrite (hedge_zero_cost _ _ _ (pairs Sell b) (good_pos_list Sell b Hg) (proj1 (sorted_arranged Sell b))).
  rewrite H2. change (hedge 0 []) with (@nil (Z * Z)). change (cost (c_kind (many dbg max)) (c_scale (many dbg max)) []) with 0.
  rewrite H1, hedge_0 by (intros x Hx; apply in_map_iff in Hx as (y & <- & _); cbn; unfold d, S4; lia).
  assert (E : cost (c_kind (many dbg max)) (c_scale (many dbg max)) (map (fun _ => (d 100, d 1)) b) = Z.of_nat (length b) * d 100).
  { clear. induction b as [|o b IH]; [reflexivity|]. cbn [map]. rewrite cost_cons, IH. cbn [fst snd length].
    change (value (c_kind (many dbg max)) (c_scale (many dbg max)) (d 1) (d 100)) with (d 100). lia. }
  rewrite E. change (ct_imr (c_spec (many dbg max))) with S4. change (c_scale (many dbg max)) with S4.
  rewrite Z.max_l by (unfold d, S4; lia). apply Z.quot_mul. discriminate.
Qed.

Lemma many_valid dbg : valid_config (many dbg 10000).
Proof. apply demo_valid; [cbn; tauto | reflexivity | lia]. Qed.

Lemma many_append dbg max e o :
  10000 <= max -> ~ In (lo_id o) (ids (ex_om e)) -> Z.of_nat (length (ex_om e)) < 10000 ->
  append_limit_order (many dbg max) e o = append_limit_order (many dbg 10000) e o.
Proof.
  intros Hm Hid Hl. unfold append_limit_order.
  assert (E : om_update (c_max (many dbg max)) (ex_om e) o = om_update (c_max (many dbg 10000)) (ex_om e) o).
  { unfold om_update. rewrite !book_insert_new by assumption. change (c_max (many dbg max)) with max. change (c_max (many dbg 10000)) with 10000.
    destruct (Z.leb_spec max (Z.of_nat (length (ex_om e)))), (Z.leb_spec 10000 (Z.of_nat (length (ex_om e)))); try lia. reflexivity. }
  rewrite E. reflexivity.
Qed.

Lemma many_step dbg max e :
  10000 <= max -> ~ In (ex_next_id e) (ids (ex_om e)) -> Z.of_nat (length (ex_om e)) < 10000 ->
  step (many dbg max) e one_buy = step (many dbg 10000) e one_buy.
Proof.
  intros Hm Hid Hl. unfold one_buy. cbn [step]. change (limit_new Buy (d 100) (d 1) 7) with (@Ok order_error _ {| nl_uid := 7; nl_side := Buy; nl_price := d 100; nl_rem := d 1 |}).
  cbv iota beta. f_equal. unfold submit_limit_order. cbn [many demo c_spec c_scale].
  destruct (validate_order_quantity _ _) as [[u|]|]; cbn [bind]; try reflexivity.
  destruct (validate_limit_price _ _ _ _) as [[u'|]|]; cbn [bind]; try reflexivity.
  change (check_limit_order (many dbg max)) with (check_limit_order (many dbg 10000)).
  destruct (check_limit_order _ _ _ _ _) as [[v|]|]; cbn [bind]; try reflexivity.
  destruct (marketable _ _); [reflexivity|]. cbn [set_trk ex_next_id ex_ms].
  rewrite many_append; [reflexivity | exact Hm | exact Hid | exact Hl].
Qed.

Record crowd (dbg : bool) (e : exchange) (n : nat) : Prop := {
  cr_pos : ex_pos e = Neutral;
  cr_quote : ms_bid (ex_ms e) = d 100 /\ ms_ask (ex_ms e) = d 101;
  cr_len : length (ex_active e) = n;
  cr_same : same_buys (ex_active e);
  cr_sync : in_sync (many dbg 10000) e;
  cr_cash : wallet_of e + order_margin_of e = d 2000000
}.

Lemma crowd_start dbg : exists e outs, history (many dbg 10000) (many_ops 0) e outs /\ crowd dbg e 0.
Proof.
  destruct (play (many dbg 10000) (many_ops 0)) as [[e outs]|w] eqn:E; [|destruct dbg; vm_compute in E; discriminate].
  pose proof E as E'. apply play_history in E. exists e, outs. split; [exact E|].
  destruct dbg; vm_compute in E'; injection E' as <- <-; constructor; try reflexivity; try (split; reflexivity); intros o [].
Qed.

Lemma buy_allowed dbg max e : ms_bid (ex_ms e) = d 100 /\ ms_ask (ex_ms e) = d 101 ->
  quantity_allowed (ct_qf (c_spec (many dbg max))) (d 1) /\
  price_allowed (c_scale (many dbg max)) (ct_pf (c_spec (many dbg max))) (mark e) (d 100) /\ ~ crosses_quote e Buy (d 100) /\ sane (many dbg max) e.
Proof.
  intros [E1 E2]. unfold mark, crosses_quote, sane. rewrite E1, E2. split.
  - apply qty_fine; [discriminate | reflexivity].
  - split; [|split; [unfold d, S4; lia|]].
    + apply price_fine; try discriminate; try reflexivity.
    + repeat split; discriminate.
Qed.

Lemma crowd_afford dbg e n sd uid :
  crowd dbg e n -> Z.of_nat n <= 10000 -> sd = Buy -> affordable (many dbg 10000) e (fresh_order e sd (d 100) (d 1) uid).
Proof.
  intros C Hn -> r r' Hr Hr'. rewrite (cr_pos _ _ _ C) in *. pose proof (cr_same _ _ _ C) as Hs.
  assert (Hs' : same_buys (ex_active e ++ [fresh_order e Buy (d 100) (d 1) uid])).
  { intros o Ho. apply in_app_or in Ho as [Ho|[<-|[]]]; [apply Hs; exact Ho | cbn; auto]. }
  assert (Hg : forall b, same_buys b -> good_book b) by (intros b Hb o Ho; destruct (Hb o Ho) as (_ & -> & ->); split; reflexivity).
  rewrite om_eq in Hr by (apply many_valid || (apply Hg; exact Hs) || exact Logic.I).
  rewrite om_eq in Hr' by (apply many_valid || (apply Hg; exact Hs') || exact Logic.I).
  injection Hr as <-. injection Hr' as <-. rewrite !many_req by assumption. rewrite app_length. cbn [length].
  pose proof (cr_sync _ _ _ C) as Sy. unfold in_sync in Sy. rewrite (cr_pos _ _ _ C) in Sy. rewrite om_eq in Sy by (apply many_valid || (apply Hg; exact Hs) || exact Logic.I).
  injection Sy as Sy. rewrite many_req in Sy by assumption. pose proof (cr_cash _ _ _ C). rewrite (cr_len _ _ _ C) in *. unfold d, S4 in *. lia.
Qed.

Lemma crowd_step dbg e n :
  reachable (many dbg 10000) e -> crowd dbg e n -> (Z.of_nat n < 10000) ->
  exists e' r, step (many dbg 10000) e one_buy = Done (e', r) /\ crowd dbg e' (S n).
Proof.
  intros R C Hn. pose proof (many_valid dbg) as V. destruct (limit_total _ _ Buy (d 100) (d 1) 7 V R (cr_sync _ _ _ C)) as (e' & r & Hs).
  exists e', r. split; [exact Hs|]. destruct (buy_allowed dbg 10000 e (cr_quote _ _ _ C)) as (Hq & Hp & Hc & Hsane).
  destruct (limit_decision _ _ Buy (d 100) (d 1) 7 _ _ V R Hsane eq_refl eq_refl Hs) as (r' & -> & Hv).
  assert (Hr : r' = Ok (fresh_order e Buy (d 100) (d 1) 7)).
  { pose proof (crowd_afford dbg e n Buy 7 C ltac:(lia) eq_refl). destruct Hv; try contradiction; [|reflexivity]. exfalso. rewrite (cr_len _ _ _ C) in *. cbn [many demo c_max] in *. lia. }
  subst r'. pose proof (entry_totals _ _ (OpLimit Buy (d 100) (d 1) 7) _ _ eq_refl Hs) as (Ht & _ & _ & Hpos).
  pose proof (entry_sync _ _ (OpLimit Buy (d 100) (d 1) 7) _ _ V R Logic.I (cr_sync _ _ _ C) Hs) as Sy.
  cbn [step] in Hs. change (limit_new Buy (d 100) (d 1) 7) with (@Ok order_error _ {| nl_uid := 7; nl_side := Buy; nl_price := d 100; nl_rem := d 1 |}) in Hs. cbv iota beta in Hs.
  apply map_out_done in Hs as (rr & Hs & Hr). destruct rr; [|discriminate].
  destruct (submit_limit_book _ _ {| nl_uid := 7; nl_side := Buy; nl_price := d 100; nl_rem := d 1 |} _ _ (proj2 (vc_max _ V)) (reachable_inv _ _ (vc_max _ V) R) (conj eq_refl eq_refl) Hs) as [_ [(err & Hx & _)|(_ & Ha & _ & Hms & _)]]; [discriminate|].
  constructor.
  - rewrite Hpos. apply (cr_pos _ _ _ C).
  - rewrite Hms. apply (cr_quote _ _ _ C).
  - rewrite Ha, app_length, (cr_len _ _ _ C). cbn. lia.
  - intros o Ho. rewrite Ha in Ho. apply in_app_or in Ho as [Ho|[<-|[]]]; [apply (cr_same _ _ _ C); exact Ho | cbn; auto].
  - exact Sy.
  - rewrite Ht. apply (cr_cash _ _ _ C).
Qed.

Lemma repeat_snoc {A} (x : A) n : repeat x n ++ [x] = repeat x (S n).
Proof. induction n as [|n IH]; [reflexivity|]. cbn [repeat app]. rewrite IH. reflexivity. Qed.

Lemma init_max dbg max : init (many dbg max) = init (many dbg 10000).
Proof. reflexivity. Qed.

Lemma first_max dbg max e : step (many dbg max) e (quote 100 101 1) = step (many dbg 10000) e (quote 100 101 1).
Proof. reflexivity. Qed.

Lemma crowd_run dbg max n : 10000 <= max -> (Z.of_nat n <= 10000) ->
  exists e outs, history (many dbg 10000) (many_ops n) e outs /\ history (many dbg max) (many_ops n) e outs /\ crowd dbg e n.
Proof.
  intros Hm. induction n as [|n IH]; intros Hn.
  - destruct (crowd_start dbg) as (e & outs & H & C). exists e, outs. split; [exact H|]. split; [|exact C].
    destruct H as (e0 & Hi & Hr). exists e0. split; [exact Hi|]. unfold many_ops in *. cbn [repeat run] in *. rewrite first_max. exact Hr.
  - destruct IH as (e & outs & H & H' & C); [lia|]. assert (R : reachable (many dbg 10000) e) by (exists (many_ops n), outs; exact H).
    destruct (crowd_step dbg e n R C ltac:(lia)) as (e' & r & Hs & C'). exists e', (outs ++ [r]).
    assert (E : many_ops (S n) = many_ops n ++ [one_buy]) by (unfold many_ops; rewrite <- repeat_snoc; reflexivity).
    rewrite E. split; [apply (history_snoc _ _ _ _ _ _ _ H Hs)|]. split; [|exact C'].
    apply (history_snoc _ _ _ _ _ _ _ H'). pose proof (reachable_inv _ _ (vc_max _ (many_valid dbg)) R) as I.
    rewrite many_step; [exact Hs | exact Hm | rewrite (inv_books _ _ I); apply (inv_fresh _ _ I) | rewrite (inv_books _ _ I), (cr_len _ _ _ C); lia].
Qed.

Lemma crowd_overflow dbg max : 10000 < max ->
  exists ops e outs e', history (many dbg max) ops e outs /\ Z.of_nat (length (ex_active e)) < c_max (many dbg max) /\
    step (many dbg max) e one_buy = Done (e', Err EMaxNumberOfActiveOrders) /\ ex_om e' <> ex_active e' /\
    forall b, step (many dbg max) e' (OpCancel b) = Panic PCancelMargin.
Proof.
  intros Hm. set (N := Z.to_nat 10000). assert (HN : Z.of_nat N = 10000) by reflexivity.
  destruct (crowd_run dbg max N ltac:(lia) ltac:(lia)) as (e & outs & H & H' & C).
  assert (R : reachable (many dbg 10000) e) by (exists (many_ops N), outs; exact H).
  pose proof (many_valid dbg) as V. pose proof (reachable_sound _ _ V R) as S. pose proof (so_inv _ _ S) as I.
  set (o := {| nl_uid := 7; nl_side := Buy; nl_price := d 100; nl_rem := d 1 |}).
  set (ord := fresh_order e Buy (d 100) (d 1) 7).
  set (e' := set_om (trk_next e (log_limit_order_submission (ex_trk e)) (ex_next_id e + 1)) (ex_active e ++ [ord])).
  assert (Hs' : same_buys (ex_active e ++ [ord])).
  { intros x Hx. apply in_app_or in Hx as [Hx|[<-|[]]]; [apply (cr_same _ _ _ C); exact Hx | cbn; auto]. }
  assert (Hg : forall b, same_buys b -> good_book b) by (intros b Hb x Hx; destruct (Hb x Hx) as (_ & -> & ->); split; reflexivity).
  exists (many_ops N), e, outs, e'. split; [exact H'|]. rewrite (cr_len _ _ _ C), HN. split; [exact Hm|]. split; [|split].
  - unfold one_buy. cbn [step]. change (limit_new Buy (d 100) (d 1) 7) with (@Ok order_error _ o). cbv iota beta.
    unfold submit_limit_order. change (validate_order_quantity (ct_qf (c_spec (many dbg max))) (nl_rem o)) with (Done (@Ok order_error unit tt)). cbn [bind].
    assert (E1 : mid_price (ex_ms e) = Z.quot (d 100 + d 101) 2) by (unfold mid_price; destruct (cr_quote _ _ _ C) as [-> ->]; reflexivity).
    cbn [set_trk ex_ms ex_next_id set_next_id ex_pos ex_acc ex_om]. rewrite E1.
    change (validate_limit_price (c_scale (many dbg max)) (ct_pf (c_spec (many dbg max))) (nl_price o) (Z.quot (d 100 + d 101) 2)) with (Done (@Ok order_error unit tt)). cbn [bind].
    change (limit_into_pending o (ex_next_id e) (ms_ts (ex_ms e))) with ord.
    change (check_limit_order (many dbg max)) with (check_limit_order (many dbg 10000)). fold (bal (ex_acc e) WALLET).
    destruct (check_affordable (many dbg 10000) e ord V S eq_refl eq_refl) as (v & Hv & [[-> _]|[_ Hn]]);
      [|exfalso; apply Hn; apply (crowd_afford dbg e N Buy 7 C ltac:(lia) eq_refl)].
    rewrite Hv. cbn [bind]. destruct (buy_allowed dbg max e (cr_quote _ _ _ C)) as (_ & _ & Hnc & _).
    destruct (marketable (ex_ms e) ord) eqn:Em; [exfalso; apply Hnc; apply (marketable_crosses e Buy (d 100) (d 1) 7); exact Em|].
    unfold append_limit_order, om_update. change (0 <? lo_rem ord) with true. cbn [assert bind set_next_id set_trk ex_om ex_active set_om].
    rewrite (inv_books _ _ I). rewrite !book_insert_new by (apply (inv_fresh _ _ I)).
    rewrite (cr_len _ _ _ C), HN. change (c_max (many dbg max)) with max. destruct (Z.leb_spec max 10000); [lia|]. cbn [bind].
    unfold active_capacity. cbn [Z.leb Z.compare Pos.compare Pos.compare_cont]. cbn. reflexivity.
  - cbn. intros E. apply (f_equal (@length _)) in E. rewrite app_length in E. cbn in E. lia.
  - intros b. cbn [step]. unfold cancel_limit_order, computed_order_margin. change (ex_pos e') with (ex_pos e). change (ex_om e') with (ex_active e ++ [ord]). change (ex_acc e') with (ex_acc e).
    rewrite (cr_pos _ _ _ C). change (order_margin (many dbg max)) with (order_margin (many dbg 10000)).
    rewrite om_eq by (exact V || (apply Hg; exact Hs') || exact Logic.I). cbn [bind]. rewrite many_req by exact Hs'.
    pose proof (cr_sync _ _ _ C) as Sy. unfold in_sync in Sy. rewrite (cr_pos _ _ _ C) in Sy.
    rewrite om_eq in Sy by (exact V || (apply Hg; apply (cr_same _ _ _ C)) || exact Logic.I). injection Sy as Sy.
    rewrite many_req in Sy by apply (cr_same _ _ _ C). change (order_margin_of e) with (margin_balance_of (ex_acc e) ORDER_MARGIN) in Sy.
    rewrite <- Sy, app_length, (cr_len _ _ _ C), Nat2Z.inj_add, HN. reflexivity.
Qed.
