(** Glue for the property about builds without overflow checks. *)
From Verif Require Import Base Types Accounting Currency Position OrderBook Exchange Spec SpecConfig SpecPanic SpecBound Scenario ScenarioPanic Width FixedFit Fixed Wrapped
  SpecFixed SpecWrapped SpecFits Release SpecRelease WrapSim WrapProof BoundFacts FitsProof ReleaseProof ReleaseFits ReleaseInv ReleaseBooks
  SpecFixed ScenarioFixed ScenarioRelease.
Require Import Lia.

Lemma checked_start w c : g_init (checked_ledger w (c_dbg c)) c = w_init w c.
Proof. reflexivity. Qed.

Lemma release_follows_checked w c ops x : 0 < w -> w_play w c ops = Fine x -> rb_play w c ops = Fine x.
Proof.
  intros Hw H. pose (L := checked_ledger w (c_dbg c)).
  assert (HR : forall e, g_run L w c e ops = w_run w c e ops) by (intros e; apply same_run).
  assert (F : follows (w_init w c) (rb_init w c)).
  { rewrite <- (checked_start w c).
    apply (f_init w c L); intros; apply f_accounting_new; exact Hw. }
  assert (G : forall e, follows (w_run w c e ops) (rb_run w c e ops)).
  { intros e. rewrite <- HR. apply (f_run w Hw c L); intros; [apply f_transfer|apply f_balance]; exact Hw. }
  destruct (f_bind _ _ _ _ F G) as [E|E]; unfold rb_play, w_play in *; congruence.
Qed.

Lemma release_follows_wrapped w c ops x : 0 < w -> c_dbg c = false -> v_play w c ops = Fine x -> rb_play w c ops = Fine x.
Proof.
  intros Hw Hd H. pose (L := wrapping_ledger w).
  assert (F : follows (v_init w c) (rb_init w c)).
  { apply (f_init w c L); intros; rewrite Hd; apply f_v_new; exact Hw. }
  assert (G : forall e, follows (v_run w c e ops) (rb_run w c e ops)).
  { intros e. apply (f_run w Hw c L); intros; [rewrite Hd; apply f_v_transfer|apply f_v_balance]; exact Hw. }
  destruct (f_bind _ _ _ _ F G) as [E|E]; unfold rb_play, v_play in *; congruence.
Qed.

Lemma release_bounded w c P V T ops :
  0 < w -> valid_config c -> config_in c P V T (2 ^ (w - 1)) -> volume ops <= V ->
  (forall o, In o ops -> call_in P T (2 ^ (w - 1)) o) -> affordable c P V (2 ^ (w - 1)) ops ->
  10001 * (Z.of_nat (length ops) + 1) < 2 ^ 64 ->
  rb_play w c ops = Fine (u_play c ops).
Proof. intros. apply release_follows_checked; [assumption|]. eapply bounded_calls; eassumption. Qed.

Lemma release_double_entry w c ops e outs :
  0 < w -> rb_play w c ops = Fine (Done (e, outs)) -> exists k, total_debits e = total_credits e + k * 2 ^ w.
Proof.
  intros Hw H. assert (G : gives (st_bal w) (rb_play w c ops)).
  { apply (g_bind _ (ex_bal w)); [apply i_init, Hw | intros e0 H0; apply i_run, H0]. }
  destruct (G _ H) as [_ [k Hk]]. exists k. exact Hk.
Qed.

Lemma release_numbers_play w c ops e outs :
  0 < w -> in_range w (c_start c) -> Forall (machine_integer w) (flat_map op_numbers ops) ->
  rb_play w c ops = Fine (Done (e, outs)) -> Forall (machine_integer w) (state_numbers e ++ flat_map out_numbers outs).
Proof. intros Hw Hs Ho H. exact (release_numbers w Hw c ops e outs Hs Ho H). Qed.

Lemma chk_in w z : in_range w z -> chk w z = ret z.
Proof.
  unfold in_range, chk, fits. intros H. destruct (Z.leb_spec (- 2 ^ (w - 1)) z); [|lia].
  destruct (Z.ltb_spec z (2 ^ (w - 1))); [reflexivity | lia].
Qed.

Lemma wrap_over w z : 0 < w -> 2 ^ (w - 1) <= z < 2 ^ w -> wrap w z < 0.
Proof.
  intros Hw H. unfold wrap. assert (E : 2 ^ w = 2 * 2 ^ (w - 1)).
  { replace w with (Z.succ (w - 1)) at 1 by lia. apply Z.pow_succ_r; lia. }
  assert (0 < 2 ^ (w - 1)) by (apply Z.pow_pos_nonneg; lia).
  rewrite <- (Z.mod_unique (z + 2 ^ (w - 1)) (2 ^ w) 1 (z - 2 ^ (w - 1))); lia.
Qed.

Lemma unfunded_open w c qty price wallet n :
  0 < w -> 0 <= wallet -> convert_from (c_kind c) (c_scale c) qty price = Done n -> in_range w n ->
  in_range w (dmul (c_scale c) n (ct_imr (c_spec c))) -> in_range w (dmul (c_scale c) n (ct_taker (c_spec c))) ->
  2 ^ (w - 1) <= dmul (c_scale c) n (ct_imr (c_spec c)) + dmul (c_scale c) n (ct_taker (c_spec c)) ->
  rb_check_market_open w c qty price wallet = Fine (Done (Ok tt)).
Proof.
  intros Hw Hb Hn Rn Rm Rf Ho. unfold rb_check_market_open.
  assert (En : rb_convert_from w (c_kind c) (c_scale c) qty price = ret n).
  { destruct (c_kind c); cbn [rb_convert_from convert_from] in *.
    - injection Hn as <-. apply chk_in, Rn.
    - unfold cdiv. rewrite Hn. apply chk_in, Rn. }
  rewrite En. cbn [cbind ret]. unfold cmul. rewrite (chk_in _ _ Rm). cbn [cbind ret]. rewrite (chk_in _ _ Rf). cbn [cbind ret].
  unfold radd, ret. cbn [cbind].
  destruct (Z.ltb_spec wallet (wrap w (dmul (c_scale c) n (ct_imr (c_spec c)) + dmul (c_scale c) n (ct_taker (c_spec c))))) as [H|H]; [|reflexivity].
  assert (E : 2 ^ w = 2 * 2 ^ (w - 1)).
  { replace w with (Z.succ (w - 1)) at 1 by lia. apply Z.pow_succ_r; lia. }
  unfold in_range in *. exfalso. match type of H with _ < wrap _ ?z => pose proof (wrap_over w z Hw ltac:(lia)) end. lia.
Qed.

Lemma release_books w c ops e outs :
  0 <= c_max c <= 10000 -> Z.of_nat (length ops) < 2 ^ 64 -> rb_play w c ops = Fine (Done (e, outs)) ->
  ex_om e = ex_active e /\ Z.of_nat (length (ex_active e)) <= c_max c /\ NoDup (map lo_id (ex_active e)) /\
  forall o, In o (ex_active e) -> 0 < lo_price o /\ 0 < lo_rem o /\ lo_id o < ex_next_id e.
Proof.
  intros [H0 Hm] Hl H. assert (G : gives (bk1 c (0 + Z.of_nat (length ops))) (rb_play w c ops)).
  { apply (g_bind _ (bk c 0)); [apply b_init, H0 | intros e0 He; apply b_run; [exact Hm | exact Hl | exact He]]. }
  destruct (G _ H) as (HE & HN & HG & _ & HL). cbn [fst] in *. split; [exact HE|]. split; [exact HL|]. split; [exact HN|].
  intros o Ho. destruct (HG o Ho) as ((_ & Hi) & Hp & Hq). auto.
Qed.

Lemma start_fits w : In w [32; 64; 128] -> in_range w (c_start (demo_cfg Linear false)).
Proof. intros [<-|[<-|[<-|[]]]]; vm_compute; split; discriminate. Qed.

Lemma demo_release_valid : valid_config (demo_cfg Linear false).
Proof. apply demo_valid; [cbn; tauto | reflexivity | vm_compute; split; discriminate]. Qed.

Lemma greedy_accepted w : In w [32; 64; 128] ->
  exists c ops e outs i, valid_config c /\ c_dbg c = false /\ in_range w (c_start c) /\ Forall (machine_integer w) (flat_map op_numbers ops) /\
    rb_play w c ops = Fine (Done (e, outs)) /\ forallb is_ok outs = true /\
    ex_pos e = Long i /\ 200 * c_start c < dmul (c_scale c) (pi_qty i) (pi_entry i) /\ ct_imr (c_spec c) = c_scale c /\
    v_balance w (ex_acc e) WALLET < 0 /\
    exists e' outs', u_play c ops = Done (e', outs' ++ [Err (ERisk NotEnoughAvailableBalance)]).
Proof.
  intros Hw. exists (demo_cfg Linear false), (greedy w).
  destruct Hw as [<-|[<-|[<-|[]]]]; eexists _, _, _; (split; [exact demo_release_valid|]); (split; [reflexivity|]);
  (split; [apply start_fits; cbn; tauto|]); (split; [apply numbers_ok; vm_compute; reflexivity|]);
  (split; [vm_compute; reflexivity|]); (split; [reflexivity|]); (split; [reflexivity|]); (split; [vm_compute; reflexivity|]);
  (split; [reflexivity|]); (split; [vm_compute; reflexivity|]); eexists _, [_]; vm_compute; reflexivity.
Qed.

Lemma oversold_negative w : In w [32; 64; 128] ->
  exists c ops e outs i, valid_config c /\ c_dbg c = false /\ in_range w (c_start c) /\ Forall (machine_integer w) (flat_map op_numbers ops) /\
    rb_play w c ops = Fine (Done (e, outs)) /\ forallb is_ok outs = true /\ ex_pos e = Short i /\ pi_qty i < 0 /\
    rb_play w c (ops ++ [OpMarket Buy (d 1) 3]) = Overflow.
Proof.
  intros Hw. exists (rich_cfg w), (oversold w).
  destruct Hw as [<-|[<-|[<-|[]]]]; eexists _, _, _;
  (split; [apply demo_valid; [cbn; tauto | reflexivity | vm_compute; split; discriminate]|]); (split; [reflexivity|]);
  (split; [vm_compute; split; discriminate|]); (split; [apply numbers_ok; vm_compute; reflexivity|]);
  (split; [vm_compute; reflexivity|]); (split; [reflexivity|]); (split; [reflexivity|]); (split; [reflexivity|]); vm_compute; reflexivity.
Qed.

Lemma order_unreserved w : In w [32; 64; 128] ->
  exists c ops e outs, valid_config c /\ c_dbg c = false /\ in_range w (c_start c) /\ Forall (machine_integer w) (flat_map op_numbers ops) /\
    rb_play w c ops = Fine (Done (e, outs)) /\ forallb is_ok outs = true /\
    200 * v_balance w (ex_acc e) ORDER_MARGIN < sumZ (map (fun o => dmul (c_scale c) (lo_rem o) (lo_price o)) (ex_active e)) /\
    ct_imr (c_spec c) = c_scale c /\
    exists e' outs', u_play c ops = Done (e', outs' ++ [Err (ERisk NotEnoughAvailableBalance)]).
Proof.
  intros Hw. exists (demo_cfg Linear false), (free_order w).
  destruct Hw as [<-|[<-|[<-|[]]]]; eexists _, _; (split; [exact demo_release_valid|]); (split; [reflexivity|]);
  (split; [apply start_fits; cbn; tauto|]); (split; [apply numbers_ok; vm_compute; reflexivity|]);
  (split; [vm_compute; reflexivity|]); (split; [reflexivity|]); (split; [vm_compute; reflexivity|]);
  (split; [reflexivity|]); eexists _, [_; _]; vm_compute; reflexivity.
Qed.
