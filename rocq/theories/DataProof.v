(** Proofs about recorded trades. *)
From Coq Require Import String.
From Verif Require Import Base Types MarketUpdate Exchange Data Spec SpecConfig SpecMarket SpecData LiqProof.

Lemma header_exact head : (good_header head -> check_header head = Done tt) /\ (~ good_header head -> check_header head = Panic PCsvHeader).
Proof.
  split.
  - intros [rest ->]. reflexivity.
  - intros N. destruct head as [|a [|b [|c rest]]]; try reflexivity. cbn [check_header].
    destruct (String.eqb_spec a "timestamp"); [subst a|reflexivity].
    destruct (String.eqb_spec b "price"); [subst b|reflexivity].
    destruct (String.eqb_spec c "size"); [subst c|reflexivity]. exfalso. apply N. exists rest. reflexivity.
Qed.

Definition loaded_as (r : csv_row) : trade :=
  {| tr_price := cr_price r; tr_qty := cr_size r; tr_side := if cr_size r <? 0 then Sell else Buy; tr_ts := cr_ms r * 1000000 |}.

Lemma rows_exact rows :
  load_rows rows = if forallb (fun r => negb (cr_size r =? 0)) rows then Done (map loaded_as rows) else Panic PCsvSize.
Proof.
  induction rows as [|r rows IH]; [reflexivity|]. cbn [load_rows forallb map]. unfold load_row.
  destruct (cr_size r =? 0); [reflexivity|]. cbn [negb assert bind andb]. rewrite IH.
  destruct (forallb _ rows); reflexivity.
Qed.

Lemma forallb_size rows : forallb (fun r => negb (cr_size r =? 0)) rows = true <-> Forall (fun r => cr_size r <> 0) rows.
Proof.
  rewrite forallb_forall, Forall_forall. split; intros H r Hr; specialize (H r Hr).
  - apply negb_true_iff in H. apply Z.eqb_neq in H. exact H.
  - apply negb_true_iff, Z.eqb_neq. exact H.
Qed.

Lemma load_exact head rows :
  (good_header head -> Forall (fun r => cr_size r <> 0) rows -> exists ts, load_trades head rows = Done ts) /\
  (good_header head -> ~ Forall (fun r => cr_size r <> 0) rows -> load_trades head rows = Panic PCsvSize) /\
  (~ good_header head -> load_trades head rows = Panic PCsvHeader).
Proof.
  destruct (header_exact head) as [H1 H2]. unfold load_trades. rewrite rows_exact. split; [|split].
  - intros G F. rewrite (H1 G). apply forallb_size in F. rewrite F. eexists. reflexivity.
  - intros G F. rewrite (H1 G). cbn [bind]. destruct (forallb _ rows) eqn:E; [apply forallb_size in E; contradiction | reflexivity].
  - intros G. rewrite (H2 G). reflexivity.
Qed.

Lemma loaded_inv head rows ts : load_trades head rows = Done ts -> ts = map loaded_as rows /\ Forall (fun r => cr_size r <> 0) rows.
Proof.
  unfold load_trades. rewrite rows_exact. destruct (check_header head); [|discriminate]. cbn [bind].
  destruct (forallb _ rows) eqn:E; [|discriminate]. intros H. injection H as <-. apply forallb_size in E. split; [reflexivity | exact E].
Qed.

Lemma loaded_rows head rows ts : load_trades head rows = Done ts ->
  Forall2 (fun r t => tr_price t = cr_price r /\ tr_ts t = 1000000 * cr_ms r /\ tr_qty t = cr_size r /\
                      (tr_side t = Buy <-> 0 < cr_size r) /\ (tr_side t = Sell <-> cr_size r < 0)) rows ts.
Proof.
  intros H. apply loaded_inv in H as [-> F]. induction F as [|r rows Hr F IH]; cbn [map]; constructor; [|exact IH].
  cbn [tr_price tr_ts tr_qty tr_side loaded_as]. repeat split; try lia;
  destruct (Z.ltb_spec (cr_size r) 0); intros; (lia || congruence).
Qed.

Lemma loaded_meant head rows ts : load_trades head rows = Done ts ->
  Forall2 (fun r t => meant r t <-> 0 < cr_size r) rows ts.
Proof.
  intros H. pose proof (loaded_inv _ _ _ H) as [_ F]. apply loaded_rows in H.
  induction H as [|r t rows ts (A & B & C & D & E) H IH]; constructor.
  - apply Forall_inv in F. unfold meant. rewrite A, B, C. split.
    + intros (_ & _ & X & _). lia.
    + intros P. repeat split; try lia; tauto.
  - apply IH. apply Forall_inv_tail in F. exact F.
Qed.

Lemma size_sign t : 0 < tr_qty t ->
  Z.abs (taker_size t) = tr_qty t /\ side_from_taker_quantity (taker_size t) = Done (tr_side t).
Proof.
  intros H. unfold taker_size, side_from_taker_quantity. destruct (tr_side t).
  - split; [lia|]. destruct (Z.eqb_spec (tr_qty t) 0); [lia|]. destruct (Z.ltb_spec (tr_qty t) 0); [lia|reflexivity].
  - split; [lia|]. destruct (Z.eqb_spec (- tr_qty t) 0); [lia|]. destruct (Z.ltb_spec (- tr_qty t) 0); [reflexivity|lia].
Qed.

Lemma net_volume l : sumZ (map (fun t => ag_size (into_agg t)) l) = volume Buy l - volume Sell l.
Proof.
  unfold volume, sumZ. induction l as [|t l IH]; [reflexivity|]. cbn [map fold_right filter]. rewrite IH.
  cbn [into_agg ag_size]. unfold taker_size. destruct (tr_side t); cbn [map fold_right]; lia.
Qed.

Lemma loaded_sizes head rows ts : load_trades head rows = Done ts -> map taker_size ts = map (fun r => Z.abs (cr_size r)) rows.
Proof.
  intros H. apply loaded_inv in H as [-> _]. rewrite map_map. apply map_ext. intros r. unfold taker_size, loaded_as.
  cbn [tr_side tr_qty]. destruct (Z.ltb_spec (cr_size r) 0); lia.
Qed.

Lemma nonpositive_panics c e t o :
  valid_config c -> reachable c e -> ~ due_after c e (RTrade t) -> In o (ex_active e) -> crosses o t = true -> tr_qty t <= 0 ->
  exists w, step c e (OpUpdate (RTrade t)) = Panic w.
Proof.
  intros V R D Io X Q. destruct (step c e (OpUpdate (RTrade t))) as [[e' r]|w] eqn:S; [exfalso|eexists; reflexivity].
  destruct (liquidation_exact _ _ _ _ _ V R S) as [_ L]. destruct (L D) as [l ->].
  destruct (update_exact _ _ _ _ _ V R S) as (_ & _ & _ & P). specialize (P o (Z.min (tr_qty t) (lo_rem o)) Io).
  cbn [touched] in P. rewrite X in P. specialize (P eq_refl). lia.
Qed.

Lemma loaded_sell_panics head rows ts c e t o :
  load_trades head rows = Done ts -> In t ts -> tr_side t = Sell ->
  valid_config c -> reachable c e -> ~ due_after c e (RTrade t) ->
  In o (ex_active e) -> lo_side o = Buy -> tr_price t < lo_price o ->
  exists w, step c e (OpUpdate (RTrade t)) = Panic w.
Proof.
  intros H It Hs V R D Io Ho P. apply loaded_inv in H as [-> F]. apply in_map_iff in It as (r & <- & Ir).
  cbn [loaded_as tr_side] in Hs. apply nonpositive_panics with (o := o); try assumption.
  - unfold crosses, beyond. rewrite Ho. cbn [loaded_as tr_side]. rewrite Hs. cbn [tr_price]. apply Z.ltb_lt. exact P.
  - cbn [loaded_as tr_qty]. destruct (Z.ltb_spec (cr_size r) 0); [lia|discriminate].
Qed.

Lemma loaded_candle_panics head rows ts b f :
  load_trades head rows = Done ts -> (exists t, In t ts /\ tr_side t = Sell) -> exists w, smart_candle_new true ts b f = Panic w.
Proof.
  intros H [t [It Hs]]. pose proof (loaded_rows _ _ _ H) as F.
  assert (N : tr_qty t <= 0).
  { clear H. induction F as [|r t' rows ts (_ & _ & C & _ & E) F IH]; [contradiction|].
    destruct It as [->|It]; [|apply (IH It)]. apply E in Hs. lia. }
  unfold smart_candle_new. destruct ts as [|t0 ts]; [contradiction|].
  destruct (debug_assert_m true _ _); [cbn [bind]|eexists; reflexivity].
  destruct (validate_bba f b); [cbn [bind]|eexists; reflexivity].
  destruct (assert _ PSmartBba); [cbn [bind]|eexists; reflexivity].
  destruct (forallb (fun t => 0 <? tr_qty t) (t0 :: ts)) eqn:E.
  - exfalso. rewrite forallb_forall in E. specialize (E t It). apply Z.ltb_lt in E. lia.
  - cbn [debug_assert assert bind]. eexists. reflexivity.
Qed.
