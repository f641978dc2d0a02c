(** Proofs about the example program. *)
From Verif Require Import Base Types Accounting Filters Currency Position OrderBook OrderMargin MarketUpdate Exchange Helpers Defaults
  Spec SpecConfig SpecMarket SpecFlow SpecMargin SpecMachine SpecCrash OrderProof HealthProof TotalProof MachineProof CrashProof CashProof
  SpecTaker TakerProof Program SpecProgram.

Lemma program_config_is m dbg : program_config m dbg = Done (example_account dbg).
Proof. destruct m, dbg; vm_compute; reflexivity. Qed.
Lemma example_valid dbg : valid_config (example_account dbg).
Proof. constructor; try discriminate; try reflexivity; vm_compute; split; discriminate. Qed.

Lemma program_is m dbg coins prices :
  exists e0, init (example_account dbg) = Done e0 /\
    program m dbg coins prices = Done (program_loop (example_account dbg) coins 0 e0 prices).
Proof.
  destruct (init_total _ (example_valid dbg)) as [e0 H]. exists e0. split; [exact H|].
  unfold program. rewrite program_config_is. cbn [bind]. rewrite H. reflexivity.
Qed.

(** ** The calls *)
Lemma loop_calls c coins prices : forall i e,
  match program_loop c coins i e prices with
  | (ops, outs, Finished e') | (ops, outs, Rekt e') | (ops, outs, NoOrder e') => run c e ops = Done (e', outs)
  | (ops, outs, Crashed w) => run c e ops = Panic w \/ (exists e', run c e ops = Done (e', outs) /\ program_size c e' = Panic w)
  end.
Proof.
  induction prices as [|p rest IH]; intros i e; cbn [program_loop]; [reflexivity|].
  destruct (step c e (program_quote i p)) as [[e1 [x|x]]|w] eqn:E; [|cbn [run]; rewrite E; reflexivity | left; cbn [run]; rewrite E; reflexivity].
  destruct (i mod 100 =? 0).
  - destruct (program_size c e1) as [q|w] eqn:Q; [|right; exists e1; cbn [run]; rewrite E; auto].
    destruct (q <=? 0); [cbn [run]; rewrite E; reflexivity|].
    destruct (step c e1 (program_order (coins i) q)) as [[e2 y]|w] eqn:E2; [|left; cbn [run]; rewrite E; cbn [bind]; rewrite E2; reflexivity].
    specialize (IH (i + 1) e2). destruct (program_loop c coins (i + 1) e2 rest) as [[ops outs] fin].
    cbn [run]. rewrite E. cbn [bind]. rewrite E2. cbn [bind].
    destruct fin as [e'|e'|e'|w]; [rewrite IH; reflexivity ..|]. destruct IH as [IH|(e' & IH & K)]; rewrite IH; [left; reflexivity|]. right. exists e'. split; [reflexivity | exact K].
  - specialize (IH (i + 1) e1). destruct (program_loop c coins (i + 1) e1 rest) as [[ops outs] fin].
    cbn [run]. rewrite E. cbn [bind].
    destruct fin as [e'|e'|e'|w]; [rewrite IH; reflexivity ..|]. destruct IH as [IH|(e' & IH & K)]; rewrite IH; [left; reflexivity|]. right. exists e'. split; [reflexivity | exact K].
Qed.

Lemma size_is dbg e : program_size (example_account dbg) e = Done (contracts_for (tenth (wallet_of e)) (ms_bid (ex_ms e))).
Proof.
  unfold program_size, convert_paired, dmul, contracts_for, tenth. cbn [c_kind c_scale example_account]. do 3 f_equal.
  fold (wallet_of e). change 10000 with (10 * 1000). apply Z.quot_mul_cancel_r; lia.
Qed.

Lemma program_calls m dbg coins prices ops outs fin : program m dbg coins prices = Done (ops, outs, fin) ->
  match fin with
  | Finished e | Rekt e | NoOrder e => history (example_account dbg) ops e outs
  | Crashed w => exists e0, init (example_account dbg) = Done e0 /\ run (example_account dbg) e0 ops = Panic w
  end.
Proof.
  destruct (program_is m dbg coins prices) as (e0 & Hi & ->). intros H. injection H as H.
  pose proof (loop_calls (example_account dbg) coins prices 0 e0) as L. rewrite H in L. destruct fin as [e|e|e|w]; try (exists e0; split; [exact Hi | exact L]).
  exists e0. split; [exact Hi|]. destruct L as [L|(e' & _ & K)]; [exact L|]. rewrite size_is in K. discriminate.
Qed.

(** ** What the calls are *)
Lemma loop_finished c coins prices : forall i e ops outs e',
  program_loop c coins i e prices = (ops, outs, Finished e') ->
  quotes_of ops = quoted i prices /\ map fst (orders_of ops) = chosen coins i (length prices) /\ length outs = length ops /\
  forall o, In o ops -> match o with OpUpdate (RBba _) => True | OpMarket _ q _ => 0 < q | _ => False end.
Proof.
  induction prices as [|p rest IH]; intros i e ops outs e'; cbn [program_loop].
  - intros H. injection H as <- <- _. cbn. repeat split. intros o [].
  - destruct (step c e (program_quote i p)) as [[e1 [x|x]]|w]; [|discriminate ..]. cbn [length chosen].
    destruct (i mod 100 =? 0).
    + destruct (program_size c e1) as [q|w]; [|discriminate]. destruct (Z.leb_spec q 0); [discriminate|].
      destruct (step c e1 (program_order (coins i) q)) as [[e2 y]|w]; [|discriminate].
      destruct (program_loop c coins (i + 1) e2 rest) as [[ops1 outs1] fin] eqn:L. intros X. injection X as <- <- ->.
      destruct (IH _ _ _ _ _ L) as (H1 & H2 & H3 & H4).
      split; [cbn [quotes_of flat_map app program_quote program_order quoted bb_bid bb_ask bb_ts]; f_equal; exact H1|].
      split; [cbn [orders_of flat_map app program_quote program_order map fst]; f_equal; exact H2|].
      split; [cbn [length]; f_equal; f_equal; exact H3|].
      intros o [<-|[<-|O]]; [exact I | cbn; assumption | apply H4, O].
    + destruct (program_loop c coins (i + 1) e1 rest) as [[ops1 outs1] fin] eqn:L. intros X. injection X as <- <- ->.
      destruct (IH _ _ _ _ _ L) as (H1 & H2 & H3 & H4).
      split; [cbn [quotes_of flat_map app program_quote quoted bb_bid bb_ask bb_ts]; f_equal; exact H1|].
      split; [exact H2|]. split; [cbn [length]; f_equal; exact H3|].
      intros o [<-|O]; [exact I | apply H4, O].
Qed.
Lemma program_finished m dbg coins prices ops outs e : program m dbg coins prices = Done (ops, outs, Finished e) ->
  quotes_of ops = quoted 0 prices /\ map fst (orders_of ops) = chosen coins 0 (length prices) /\ length outs = length ops /\
  forall o, In o ops -> match o with OpUpdate (RBba _) => True | OpMarket _ q _ => 0 < q | _ => False end.
Proof.
  destruct (program_is m dbg coins prices) as (e0 & Hi & ->). intros H. injection H as H. exact (loop_finished _ _ _ _ _ _ _ _ H).
Qed.

(** ** One order *)
Lemma contracts_le v p : 0 < p -> 0 < contracts_for v p -> 0 < v /\ contracts_for v p * 10000 <= v * p.
Proof.
  unfold contracts_for. intros Hp H. assert (0 < v * p).
  { destruct (Z.le_gt_cases (v * p) 0); [|lia]. pose proof (Z.quot_le_mono (v * p) 0 10000 ltac:(lia) ltac:(lia)) as K. cbn in K. lia. }
  split; [nia|]. rewrite Z.quot_div_nonneg by lia. pose proof (Z.mul_div_le (v * p) 10000 ltac:(lia)). lia.
Qed.
Lemma tenth_le w : 0 < tenth w -> 10 * tenth w <= w.
Proof. unfold tenth. intros H. pose proof (Z.quot_rem w 10 ltac:(lia)). destruct (Z.le_gt_cases 0 w); [pose proof (Z.rem_bound_pos w 10 ltac:(lia) ltac:(lia)); lia|].
  pose proof (Z.quot_le_mono w 0 10 ltac:(lia) ltac:(lia)) as K. cbn in K. lia. Qed.

(** What [q] contracts cost at a price at or above the bid. *)
Lemma order_cost dbg q v bid p : 0 < bid <= p -> 0 <= q -> q * 10000 <= v * bid ->
  let c := example_account dbg in
  0 <= margin_at c q p <= v /\ 0 <= Z.quot (value (c_kind c) (c_scale c) q p * 6) 10000 <= v.
Proof.
  intros Hb Hq Hv c. unfold margin_at, c. cbn [c_kind c_scale c_spec ct_imr example_account value]. rewrite Z.quot_mul by lia.
  assert (0 <= Z.quot (q * 10000) p <= v).
  { rewrite Z.quot_div_nonneg by lia. split; [apply Z.div_pos; lia|]. apply Z.div_le_upper_bound; nia. }
  split; [assumption|]. rewrite Z.quot_div_nonneg by lia. split; [apply Z.div_pos; lia|]. apply Z.div_le_upper_bound; lia.
Qed.


Lemma funded_program dbg e sd v : let c := example_account dbg in
  0 < ms_bid (ex_ms e) <= ms_ask (ex_ms e) -> v = tenth (wallet_of e) ->
  forall q, q = contracts_for v (ms_bid (ex_ms e)) -> 0 < q ->
  (0 <= position_margin_of e \/ m_pos (machine_of e) = 0 \/ Z.sgn (m_pos (machine_of e)) = Z.sgn (signed_qty (taken c (machine_of e) sd q))) ->
  m_funded c (machine_of e) sd q = true.
Proof.
  intros c Hb -> q -> Hq Hh. set (w := wallet_of e) in *. set (bid := ms_bid (ex_ms e)) in *. set (q := contracts_for (tenth w) bid) in *.
  destruct (contracts_le (tenth w) bid ltac:(lia) Hq) as [Hv Hc]. fold q in Hc. pose proof (tenth_le w Hv) as Hw.
  assert (Hp : 0 < bid <= m_price (machine_of e) sd) by (unfold m_price; destruct sd; cbn [machine_of m_bid m_ask]; fold bid; lia).
  unfold m_funded. cbv zeta. rewrite machine_wallet. fold w. destruct ((_ =? 0) || _) eqn:E.
  - apply Z.leb_le. destruct (order_cost dbg q (tenth w) bid _ Hp ltac:(lia) Hc) as [K1 K2]. unfold fee, c. cbn [taken f_qty f_price f_rate]. cbn [c_spec ct_taker example_account].
    change (c_scale (example_account dbg)) with 10000 in *. lia.
  - apply orb_false_iff in E as [E1 E2]. apply Z.eqb_neq in E1, E2. destruct Hh as [Hh|[Hh|Hh]]; try contradiction.
    apply orb_true_iff. destruct (Z.leb_spec q (Z.abs (m_pos (machine_of e)))); [left; reflexivity | right]. apply Z.leb_le.
    set (r := q - Z.abs (m_pos (machine_of e))) in *.
    destruct (order_cost dbg r (tenth w) bid _ Hp ltac:(lia) ltac:(lia)) as [K1 K2]. unfold fee, c. cbn [taken f_qty f_price f_rate]. cbn [c_spec ct_taker example_account].
    change (m_held (machine_of e)) with (position_margin_of e). change (c_scale (example_account dbg)) with 10000 in *. lia.
Qed.

Lemma fault_program dbg q : 0 < q ->
  quantity_fault (ct_qf (c_spec (example_account dbg))) q = (if q mod 10000 =? 0 then None else Some InvalidQuantityStepSize).
Proof. intros _. unfold quantity_fault. cbn [example_account c_spec ct_qf qf_min qf_max qf_tick]. rewrite Z.sub_0_r. reflexivity. Qed.

(** The order of the program: refused unless it is a whole number of contracts, and then always affordable. *)
Lemma order_result dbg e sd : reachable (example_account dbg) e -> 0 < ms_bid (ex_ms e) <= ms_ask (ex_ms e) ->
  let q := contracts_for (tenth (wallet_of e)) (ms_bid (ex_ms e)) in 0 < q ->
  (forall p, ms_bid (ex_ms e) <= p -> margin_at (example_account dbg) q p <= tenth (wallet_of e)) /\
  match step (example_account dbg) e (OpMarket sd q 0) with
  | Done (e', r) =>
      (~ (10000 | q) -> r = Err (EOrder InvalidQuantityStepSize) /\ machine_of e' = machine_of e) /\
      ((10000 | q) -> (exists f, r = Ok (OutMarket f)) \/ (r = Err (ERisk NotEnoughAvailableBalance) /\ position_margin_of e < 0))
  | Panic _ => (10000 | q)
  end.
Proof.
  intros R Hb q Hq. pose proof (example_valid dbg) as V.
  destruct (contracts_le (tenth (wallet_of e)) _ (proj1 Hb) Hq) as [Hv Hc]. fold q in Hc. split.
  { intros p Hp. apply (order_cost dbg q (tenth (wallet_of e)) (ms_bid (ex_ms e)) p); lia. }
  pose proof (crash_step _ e (OpMarket sd q 0) V R) as K. destruct (step _ e (OpMarket sd q 0)) as [[e' r]|w] eqn:E.
  - pose proof (machine_step _ e _ e' r V R E) as M. cbn [m_call] in M. unfold m_market in M. rewrite fault_program in M by assumption.
    destruct (Z.leb_spec q 0); [lia|]. split.
    + intros Hn. destruct (Z.eqb_spec (q mod 10000) 0) as [D|_]; [exfalso; apply Hn; apply Z.mod_divide; [lia | exact D]|].
      pose proof (f_equal fst M) as M1. pose proof (f_equal snd M) as M2. cbn [fst snd] in M1, M2. auto.
    + intros Hd. apply Z.mod_divide in Hd; [|lia]. rewrite Hd in M. cbn [Z.eqb] in M.
      destruct (Z.lt_ge_cases (position_margin_of e) 0) as [L|L].
      * destruct (m_funded _ _ _ _); pose proof (f_equal snd M) as M2; cbn [snd] in M2; [left; eexists; symmetry; exact M2 | right; auto].
      * rewrite (funded_program dbg e sd _ Hb eq_refl q eq_refl Hq) in M by auto. pose proof (f_equal snd M) as M2; cbn [snd] in M2. left; eexists; symmetry; exact M2.
  - cbn [m_crash] in K. unfold market_crash in K. rewrite fault_program in K by assumption. destruct (Z.leb_spec q 0); [lia|].
    destruct (Z.eqb_spec (q mod 10000) 0) as [D|_]; [apply Z.mod_divide; [lia | exact D] | discriminate].
Qed.

(** ** The account of the program *)
Definition mild (c : config) (x : option panic_site) : Prop := harmless c x \/ x = Some PFlipMargin.

Lemma program_fill c m sd q :
  0 < c_scale c -> 0 <= ct_imr (c_spec c) -> taker c m -> 0 < q -> (c_scale c | q) -> weighty c (m_price m sd) ->
  mild c (take_crash c m sd q) /\ (c_scale c | m_pos m + signed_qty (taken c m sd q)) /\
  (m_pos m + signed_qty (taken c m sd q) <> 0 -> weighty c (l_entry (m_book (m_fill c m (taken c m sd q))))).
Proof.
  intros Hs Hi I Hq Hd Hw.
  assert (Dec : no_flip (m_pos m) sd q \/ (m_pos m <> 0 /\ Z.sgn (m_pos m) <> Z.sgn (signed_qty (taken c m sd q)) /\ Z.abs (m_pos m) < q /\
    Z.sgn (m_pos m + signed_qty (taken c m sd q)) <> Z.sgn (m_pos m) /\ m_pos m + signed_qty (taken c m sd q) <> 0)).
  { destruct sd; cbn [no_flip taken signed_qty f_side f_qty]; lia. }
  destruct Dec as [Hn|(E & Sg & Lq & Sg2 & N0)].
  - destruct (taker_fill c m sd q Hs Hi (tk_whole _ _ I) (tk_entry _ _ I) Hq Hd (proj1 Hw) (fun _ => Hw) Hn) as (X & Y & Z0).
    split; [left; exact X | auto].
  - set (f := taken c m sd q) in *. assert (Sf : signed_qty f = match sd with Buy => q | Sell => - q end) by reflexivity.
    split; [|split].
    + unfold take_crash. fold f. destruct (Z.ltb_spec 0 (m_price m sd)); [|destruct Hw; lia]. cbn [demand first_of].
      unfold fill_crash. cbv zeta. change (f_qty f) with q. change (f_price f) with (m_price m sd).
      destruct (Z.eqb_spec (m_pos m) 0); [contradiction|]. destruct (Z.eqb_spec (Z.sgn (m_pos m)) (Z.sgn (signed_qty f))); [contradiction|]. cbn [orb].
      pose proof (tk_entry _ _ I E) as We. replace (Z.min q (Z.abs (m_pos m))) with (Z.abs (m_pos m)) by lia.
      pose proof (margin_pos c (Z.abs (m_pos m)) _ Hs Hi We ltac:(apply whole_ge; [assumption | lia | apply Z.divide_abs_r, I])) as M.
      assert (D1 : demand (divides c (l_entry (m_book m))) PDivByZero = None).
      { unfold demand, divides. destruct (c_kind c); [reflexivity|]. destruct We. destruct (Z.eqb_spec (l_entry (m_book m)) 0); [lia | reflexivity]. }
      assert (D2 : forall w, demand (0 <? margin_at c (Z.abs (m_pos m)) (l_entry (m_book m))) w = None) by (intros; unfold demand; destruct (Z.ltb_spec 0 (margin_at c (Z.abs (m_pos m)) (l_entry (m_book m)))); [reflexivity | lia]).
      assert (M2 : 0 < margin_at c (q - Z.abs (m_pos m)) (m_price m sd)).
      { apply margin_pos; try assumption. apply whole_ge; [assumption | lia|]. apply Z.divide_sub_r; [assumption | apply Z.divide_abs_r, I]. }
      rewrite D1, !D2. unfold in_debug. replace (if c_dbg c then None else None : option panic_site) with (@None panic_site) by (destruct (c_dbg c); reflexivity). cbn [first_of].
      destruct (Z.compare_spec q (Z.abs (m_pos m))); [lia | lia |].
      destruct (Z.ltb_spec 0 (margin_at c (q - Z.abs (m_pos m)) (m_price m sd))); [|lia]. unfold demand. destruct (m_held m =? _); [left; left; reflexivity | right; reflexivity].
    + rewrite Sf. destruct sd; apply Z.divide_add_r; try apply I; try assumption. apply Z.divide_opp_r; assumption.
    + intros _. unfold m_fill, apply_fill. cbn [m_book]. change (l_qty (m_book m)) with (m_pos m).
      destruct (Z.eqb_spec (m_pos m) 0); [contradiction|]. destruct (Z.eqb_spec (Z.sgn (m_pos m)) (Z.sgn (signed_qty f))); [contradiction|]. cbn [l_entry].
      destruct (Z.eqb_spec (m_pos m + signed_qty f) 0); [contradiction|]. destruct (Z.eqb_spec (Z.sgn (m_pos m + signed_qty f)) (Z.sgn (m_pos m))); [contradiction|].
      exact Hw.
Qed.

Lemma whole_tradable dbg n : (10000 | n) -> tradable (example_account dbg) n.
Proof.
  intros Hd. unfold tradable. destruct (Z.eq_dec n 0) as [|E]; [left; assumption | right]. rewrite fault_program by lia.
  apply Z.divide_abs_r in Hd. apply Z.mod_divide in Hd; [|lia]. rewrite Hd. reflexivity.
Qed.
Lemma program_market dbg m sd q uid : let c := example_account dbg in taker c m -> 0 < q -> weighty c (m_price m sd) ->
  mild c (market_crash c m sd q) /\ taker c (fst (m_market c m sd q uid)).
Proof.
  intros c I Hq Hw. unfold market_crash, m_market. destruct (Z.leb_spec q 0); [lia|]. unfold c. rewrite fault_program by assumption. fold c.
  destruct (Z.eqb_spec (q mod 10000) 0) as [D|_]; [|split; [left; left; reflexivity | exact I]]. apply Z.mod_divide in D; [|lia].
  assert (Dv : forall b, demand (b || divides c (m_price m sd)) PDivByZero = None).
  { intros b. unfold demand, divides, c. cbn [c_kind example_account]. destruct Hw. destruct (Z.eqb_spec (m_price m sd) 0); [lia|]. rewrite orb_true_r. reflexivity. }
  rewrite Dv. cbn [first_of]. destruct (m_funded c m sd q); [|split; [left; left; reflexivity | apply taker_id, I]]. cbn [fst].
  destruct (program_fill c m sd q ltac:(reflexivity) ltac:(cbn; lia) I Hq D Hw) as (X & Y & Z0).
  split; [destruct (take_crash c m sd q); exact X|]. apply taker_id. rewrite <- (pos_after c m) in Y, Z0.
  constructor; try apply I; try assumption; [apply whole_tradable, Y|]. intros _. destruct Hw as [Hp _]. pose proof (tk_both _ _ I). change (0 < m_bid m). unfold m_price in Hp. destruct sd; tauto.
Qed.

Lemma low_weighty dbg p : 0 < p <= 10000 * 10000 -> weighty (example_account dbg) p.
Proof.
  intros Hp. split; [lia|]. unfold margin_at. cbn [c_kind c_scale c_spec ct_imr example_account value]. rewrite Z.quot_mul by lia.
  apply Z.quot_str_pos. lia.
Qed.
Lemma quote_priced dbg i p : 0 < p -> (1000 | p) -> priced_data (example_account dbg) (RBba {| bb_bid := p; bb_ask := p + 1000; bb_ts := i |}).
Proof.
  intros Hp Hd. split; [cbn [quote_of bb_bid bb_ask]; lia|]. split; [reflexivity|]. intros _. cbn [data_valid]. unfold quote_valid, price_valid, price_in.
  cbn [example_account c_spec ct_pf pf_min pf_max pf_tick bb_bid bb_ask andb].
  assert (H1 : p mod 1000 = 0) by (apply Z.mod_divide; [lia | exact Hd]).
  assert (H2 : (p + 1000) mod 1000 = 0) by (apply Z.mod_divide; [lia|]; apply Z.divide_add_r; [exact Hd | exists 1; reflexivity]).
  rewrite H1, H2. destruct (Z.ltb_spec p (p + 1000)); [reflexivity | lia].
Qed.

(** One update of the program. *)
Lemma program_update dbg e i p : let c := example_account dbg in reachable c e -> taker c (machine_of e) -> 0 < p -> (1000 | p) ->
  match step c e (program_quote i p) with
  | Done (e', r) => reachable c e' /\ taker c (machine_of e') /\ ms_bid (ex_ms e') = p /\ ms_ask (ex_ms e') = p + 1000 /\
      match r with Ok _ => m_pos (machine_of e') = m_pos (machine_of e) /\ wallet_of e' = wallet_of e
                 | Err x => x = ERisk Liquidate /\ m_pos (machine_of e') = 0 end
  | Panic w => c_dbg c = true /\ w = PCloseMarginDebug
  end.
Proof.
  intros c R I Hp Hd. pose proof (example_valid dbg) as V. fold c in V. unfold program_quote. set (ru := RBba _).
  destruct (taker_update c (machine_of e) ru ltac:(reflexivity) ltac:(cbn; lia) I (quote_priced dbg i p Hp Hd) Logic.I) as [X Y].
  pose proof (crash_step c e (OpUpdate ru) V R) as K. destruct (step c e (OpUpdate ru)) as [[e' r]|w] eqn:E.
  - pose proof (machine_step c e _ e' r V R E) as M. cbn [m_call] in M. rewrite M in Y. cbn [fst] in Y.
    split; [exact (reach_step _ _ _ _ _ R E)|]. split; [exact Y|].
    unfold m_update in M. set (m1 := with_quote (machine_of e) ru) in *.
    assert (B : m_bid m1 = p /\ m_ask m1 = p + 1000) by (split; reflexivity). destruct B as [B1 B2].
    destruct (m_due c m1) eqn:Due.
    + pose proof (f_equal fst M) as M1. pose proof (f_equal snd M) as M2. cbn [fst snd] in M1, M2.
      assert (P0 : m_pos (machine_of e') = 0).
      { rewrite <- M1. change (m_pos (with_id (m_fill c m1 (taken c m1 (if 0 <? m_pos m1 then Sell else Buy) (Z.abs (m_pos m1)))))) with (m_pos (m_fill c m1 (taken c m1 (if 0 <? m_pos m1 then Sell else Buy) (Z.abs (m_pos m1))))). rewrite pos_after. cbn [taken signed_qty f_side f_qty].
        unfold m_due in Due. cbv zeta in Due. revert Due. generalize (m_pos m1). intros n Due. destruct (Z.ltb_spec 0 n); cbn [signed_qty f_side f_qty]; [unfold signed_qty, taken; cbn; lia|].
        destruct (Z.ltb_spec n 0); [unfold signed_qty, taken; cbn; lia | discriminate]. }
      split; [rewrite <- B1; exact (eq_sym (f_equal m_bid M1))|]. split; [rewrite <- B2; exact (eq_sym (f_equal m_ask M1))|].
      rewrite <- M2. auto.
    + assert (Em : m_meet_all c ru m1 = m1) by (unfold m_meet_all; change (m_orders m1) with (m_orders (machine_of e)); rewrite (tk_orders _ _ I); reflexivity).
      rewrite Em in M. pose proof (f_equal fst M) as M1. pose proof (f_equal snd M) as M2. cbn [fst snd] in M1, M2.
      split; [rewrite <- B1; exact (eq_sym (f_equal m_bid M1))|]. split; [rewrite <- B2; exact (eq_sym (f_equal m_ask M1))|].
      rewrite <- M2. split; [rewrite <- M1; reflexivity|]. rewrite <- !machine_wallet, <- M1. reflexivity.
  - cbn [m_crash] in K. destruct X as [X|[Dg X]].
    + unfold ru in K. cbn [build_crash first_of] in K. fold ru in K. rewrite X in K. discriminate.
    + unfold ru in K. cbn [build_crash first_of] in K. fold ru in K. rewrite X in K. injection K as <-. auto.
Qed.

(** The side of a position that is only ever built up by one kind of orders. *)
Definition one_sided (sell : bool) (n : Z) : Prop := if sell then n <= 0 else 0 <= n.

Lemma low_tail p rest : low_prices (p :: rest) -> (0 < p /\ (1000 | p) /\ p + 1000 <= 10000 * 10000) /\ low_prices rest.
Proof. intros H. split; [apply H; left; reflexivity | intros x X; apply H; right; exact X]. Qed.

Lemma loop_endings dbg coins prices : forall i e, let c := example_account dbg in
  low_prices prices -> reachable c e -> taker c (machine_of e) ->
  match program_loop c coins i e prices with
  | (_, _, Finished e') => taker c (machine_of e')
  | (_, _, Rekt e') => taker c (machine_of e') /\ m_pos (machine_of e') = 0
  | (_, _, NoOrder e') => taker c (machine_of e') /\ contracts_for (tenth (wallet_of e')) (ms_bid (ex_ms e')) <= 0
  | (_, _, Crashed w) => w = PFlipMargin \/ (dbg = true /\ w = PCloseMarginDebug)
  end.
Proof.
  induction prices as [|p rest IH]; intros i e c L R I; cbn [program_loop]; [exact I|]. destruct (low_tail _ _ L) as [(Hp & Hd & Hl) L'].
  pose proof (program_update dbg e i p R I Hp Hd) as U. fold c in U. cbv zeta in U.
  destruct (step c e (program_quote i p)) as [[e1 [x|x]]|w]; [|destruct U as (_ & U2 & _ & _ & _ & U3); auto | right; exact U].
  destruct U as (R1 & I1 & B1 & B2 & _). destruct (i mod 100 =? 0).
  - unfold c. rewrite size_is. fold c. set (q := contracts_for _ _). destruct (Z.leb_spec q 0) as [|Hq]; [auto|].
    pose proof (example_valid dbg) as V. fold c in V. set (o := program_order (coins i) q).
    assert (Mk : mild c (m_crash c (machine_of e1) o) /\ taker c (fst (m_call c (machine_of e1) o))).
    { apply program_market; [exact I1 | exact Hq|]. unfold m_price. cbn [machine_of m_bid m_ask]. destruct (coins i); rewrite ?B1, ?B2; apply low_weighty; lia. }
    destruct Mk as [X Y]. pose proof (crash_step c e1 o V R1) as K. destruct (step c e1 o) as [[e2 y]|w] eqn:E.
    + rewrite (machine_step c e1 o e2 y V R1 E) in Y. cbn [fst] in Y. specialize (IH (i + 1) e2 L' (reach_step _ _ _ _ _ R1 E) Y). fold c in IH.
      destruct (program_loop c coins (i + 1) e2 rest) as [[ops outs] fin]. destruct fin; exact IH.
    + rewrite K in X. destruct X as [[X|[Dg X]]|X]; [discriminate | injection X as ->; auto | injection X as ->; auto].
  - specialize (IH (i + 1) e1 L' R1 I1). fold c in IH. destruct (program_loop c coins (i + 1) e1 rest) as [[ops outs] fin]. destruct fin; exact IH.
Qed.

Lemma loop_one_sided dbg coins sell prices : forall i e, let c := example_account dbg in
  (forall j, coins j = sell) -> low_prices prices -> reachable c e -> taker c (machine_of e) -> one_sided sell (m_pos (machine_of e)) ->
  match program_loop c coins i e prices with
  | (_, _, Crashed w) => dbg = true /\ w = PCloseMarginDebug
  | _ => True
  end.
Proof.
  induction prices as [|p rest IH]; intros i e c C L R I O; cbn [program_loop]; [exact Logic.I|]. destruct (low_tail _ _ L) as [(Hp & Hd & Hl) L'].
  pose proof (program_update dbg e i p R I Hp Hd) as U. fold c in U. cbv zeta in U.
  destruct (step c e (program_quote i p)) as [[e1 [x|x]]|w]; [|exact Logic.I | exact U].
  destruct U as (R1 & I1 & B1 & B2 & Ps & _). rewrite <- Ps in O. destruct (i mod 100 =? 0).
  - unfold c. rewrite size_is. fold c. set (q := contracts_for _ _). destruct (Z.leb_spec q 0) as [|Hq]; [exact Logic.I|].
    pose proof (example_valid dbg) as V. fold c in V. set (o := program_order (coins i) q).
    assert (W : weighty c (m_price (machine_of e1) (if coins i then Sell else Buy))).
    { unfold m_price. cbn [machine_of m_bid m_ask]. destruct (coins i); rewrite ?B1, ?B2; apply low_weighty; lia. }
    assert (N : no_flip (m_pos (machine_of e1)) (if coins i then Sell else Buy) q) by (rewrite C; destruct sell; cbn [no_flip one_sided] in *; lia).
    destruct (program_market dbg (machine_of e1) (if coins i then Sell else Buy) q 0 I1 Hq W) as [X Y]. fold c in X, Y.
    assert (X2 : harmless c (market_crash c (machine_of e1) (if coins i then Sell else Buy) q)).
    { destruct (Z.eqb_spec (q mod 10000) 0) as [D|D].
      - apply Z.mod_divide in D; [|lia]. apply (taker_market c (machine_of e1) _ q 0); try assumption; [reflexivity | cbn; lia|].
        apply whole_tradable. exact (tk_whole _ _ Y).
      - left. unfold market_crash, c. rewrite fault_program by assumption. destruct (Z.leb_spec q 0); [lia|]. destruct (Z.eqb_spec (q mod 10000) 0); [contradiction | reflexivity]. }
    pose proof (crash_step c e1 o V R1) as K. destruct (step c e1 o) as [[e2 y]|w] eqn:E.
    + assert (O2 : one_sided sell (m_pos (machine_of e2))).
      { pose proof (machine_step c e1 o e2 y V R1 E) as M. pose proof (f_equal fst M) as M1. cbn [fst] in M1. rewrite <- M1. unfold o, program_order. cbn [m_call].
        unfold m_market. destruct (q <=? 0); [exact O|]. destruct (quantity_fault _ _); [exact O|]. destruct (m_funded _ _ _ _); [|exact O].
        cbn [fst]. unfold with_id. unfold m_pos at 1. cbn [m_book]. change (one_sided sell (m_pos (m_fill c (machine_of e1) (taken c (machine_of e1) (if coins i then Sell else Buy) q)))).
        rewrite pos_after, C. unfold signed_qty, taken; destruct sell; cbn in *; lia. }
      pose proof (machine_step c e1 o e2 y V R1 E) as M. change (taker c (fst (m_call c (machine_of e1) o))) in Y. rewrite M in Y. cbn [fst] in Y.
      specialize (IH (i + 1) e2 C L' (reach_step _ _ _ _ _ R1 E) Y O2). fold c in IH.
      destruct (program_loop c coins (i + 1) e2 rest) as [[ops outs] fin]. destruct fin; exact IH.
    + change (m_crash c (machine_of e1) o) with (market_crash c (machine_of e1) (if coins i then Sell else Buy) q) in K.
      rewrite K in X2. destruct X2 as [X2|[Dg X2]]; [discriminate | injection X2 as ->; auto].
  - specialize (IH (i + 1) e1 C L' R1 I1 O). fold c in IH. destruct (program_loop c coins (i + 1) e1 rest) as [[ops outs] fin]. destruct fin; exact IH.
Qed.

(** As long as the prices are no whole numbers nothing is ever traded. *)
Lemma loop_never_trades dbg coins prices : forall i e, let c := example_account dbg in
  (forall p, In p prices -> 0 < p /\ (1000 | p) /\ ~ (10000 | p)) -> reachable c e -> taker c (machine_of e) ->
  m_pos (machine_of e) = 0 -> wallet_of e = 100000 ->
  exists ops outs e', program_loop c coins i e prices = (ops, outs, Finished e') /\ taker c (machine_of e') /\
    m_pos (machine_of e') = 0 /\ wallet_of e' = 100000 /\
    forall y, In y outs -> (exists x, y = Ok (OutUpdates x)) \/ y = Err (EOrder InvalidQuantityStepSize).
Proof.
  induction prices as [|p rest IH]; intros i e c L R I P W; cbn [program_loop]; [exists [], [], e; split; [reflexivity|]; split; [exact I|]; split; [exact P|]; split; [exact W | intros y []]|].
  destruct (L p (or_introl eq_refl)) as (Hp & Hd & Hn). assert (L' : forall x, In x rest -> 0 < x /\ (1000 | x) /\ ~ (10000 | x)) by (intros x X; apply L; right; exact X).
  pose proof (example_valid dbg) as V. fold c in V.
  pose proof (program_update dbg e i p R I Hp Hd) as U. fold c in U. cbv zeta in U.
  pose proof (crash_step c e (program_quote i p) V R) as K.
  assert (Nd : m_due c (with_quote (machine_of e) (RBba {| bb_bid := p; bb_ask := p + 1000; bb_ts := i |})) = false).
  { unfold m_due. change (m_pos (with_quote (machine_of e) (RBba {| bb_bid := p; bb_ask := p + 1000; bb_ts := i |}))) with (m_pos (machine_of e)). rewrite P. reflexivity. }
  destruct (step c e (program_quote i p)) as [[e1 r]|w] eqn:E1.
  2: { exfalso. unfold program_quote in K. cbn [m_crash build_crash first_of] in K. unfold update_crash in K. rewrite Nd in K. cbn [check_crash] in K.
       pose proof (quote_priced dbg i p Hp Hd) as (_ & _ & D). fold c in D. unfold in_debug in K. destruct (c_dbg c) eqn:Dg; [|discriminate].
       rewrite (D eq_refl) in K. discriminate. }
  pose proof (machine_step c e _ e1 r V R E1) as M. unfold program_quote in M. cbn [m_call] in M. unfold m_update in M. rewrite Nd in M.
  pose proof (f_equal snd M) as M2. cbn [snd] in M2. subst r. destruct U as (R1 & I1 & B1 & B2 & P1 & W1). rewrite P in P1. rewrite W in W1.
  destruct (i mod 100 =? 0).
  - unfold c. rewrite size_is. fold c. rewrite W1, B1. change (tenth 100000) with 10000.
    assert (Q : contracts_for 10000 p = p) by (unfold contracts_for; rewrite Z.mul_comm, Z.quot_mul; lia). rewrite Q.
    destruct (Z.leb_spec p 0); [lia|]. set (o := program_order (coins i) p).
    assert (X : m_call c (machine_of e1) o = (machine_of e1, Err (EOrder InvalidQuantityStepSize)) /\ m_crash c (machine_of e1) o = None).
    { unfold o, program_order. cbn [m_call m_crash]. unfold m_market, market_crash, c. rewrite fault_program by lia. destruct (Z.leb_spec p 0); [lia|].
      destruct (Z.eqb_spec (p mod 10000) 0) as [D|_]; [exfalso; apply Hn; apply Z.mod_divide; [lia | exact D] | auto]. }
    destruct X as [X1 X2]. pose proof (crash_step c e1 o V R1) as K2. destruct (step c e1 o) as [[e2 y]|w] eqn:E2; [|congruence].
    pose proof (machine_step c e1 o e2 y V R1 E2) as M3. rewrite X1 in M3. pose proof (f_equal fst M3) as M4. pose proof (f_equal snd M3) as M5. cbn [fst snd] in M4, M5.
    assert (W2 : wallet_of e2 = 100000) by (rewrite <- machine_wallet, <- M4, machine_wallet; exact W1).
    rewrite M4 in I1, P1. destruct (IH (i + 1) e2 L' (reach_step _ _ _ _ _ R1 E2) I1 P1 W2) as (ops & outs & e' & H1 & H2 & H3 & H4 & H5). fold c in H1. rewrite H1.
    eexists _, _, e'. split; [reflexivity|]. split; [exact H2|]. split; [exact H3|]. split; [exact H4|].
    intros z [<-|[<-|O]]; [left; eauto | right; symmetry; exact M5 | apply H5, O].
  - destruct (IH (i + 1) e1 L' R1 I1 P1 W1) as (ops & outs & e' & H1 & H2 & H3 & H4 & H5). fold c in H1. rewrite H1.
    eexists _, _, e'. split; [reflexivity|]. split; [exact H2|]. split; [exact H3|]. split; [exact H4|].
    intros z [<-|O]; [left; eauto | apply H5, O].
Qed.

(** ** The program *)
Lemma program_start dbg e0 : init (example_account dbg) = Done e0 ->
  reachable (example_account dbg) e0 /\ taker (example_account dbg) (machine_of e0) /\ m_pos (machine_of e0) = 0 /\ wallet_of e0 = 100000.
Proof.
  intros Hi. split; [exists [], [], e0; split; [exact Hi | reflexivity]|].
  pose proof (machine_init _ e0 Hi) as E0. rewrite <- machine_wallet, E0. split; [apply taker_start, example_valid | split; reflexivity].
Qed.
Lemma taker_plain dbg e : taker (example_account dbg) (machine_of e) -> plain e.
Proof. intros I. split; [exact (tk_orders _ _ I)|]. split; [exact (tk_reserved _ _ I) | exact (tk_whole _ _ I)]. Qed.

Lemma program_endings m dbg coins prices : low_prices prices ->
  exists ops outs fin, program m dbg coins prices = Done (ops, outs, fin) /\
  match fin with
  | Finished e => plain e
  | Rekt e => plain e /\ position_quantity (ex_pos e) = 0
  | NoOrder e => plain e /\ contracts_for (tenth (wallet_of e)) (ms_bid (ex_ms e)) <= 0
  | Crashed w => w = PFlipMargin \/ (dbg = true /\ w = PCloseMarginDebug)
  end.
Proof.
  intros L. destruct (program_is m dbg coins prices) as (e0 & Hi & ->). destruct (program_start dbg e0 Hi) as (R & I & _).
  pose proof (loop_endings dbg coins prices 0 e0 L R I) as X. destruct (program_loop _ _ _ _ _) as [[ops outs] fin]. exists ops, outs, fin. split; [reflexivity|].
  destruct fin as [e|e|e|w]; [apply (taker_plain dbg), X | destruct X as [X1 X2]; split; [apply (taker_plain dbg), X1 | exact X2] | destruct X as [X1 X2]; split; [apply (taker_plain dbg), X1 | exact X2] | exact X].
Qed.
Lemma program_one_sided m dbg coins sell prices : low_prices prices -> (forall j, coins j = sell) ->
  exists ops outs fin, program m dbg coins prices = Done (ops, outs, fin) /\
  forall w, fin = Crashed w -> dbg = true /\ w = PCloseMarginDebug.
Proof.
  intros L C. destruct (program_is m dbg coins prices) as (e0 & Hi & ->). destruct (program_start dbg e0 Hi) as (R & I & P & _).
  pose proof (loop_one_sided dbg coins sell prices 0 e0 C L R I) as X. rewrite P in X. specialize (X ltac:(destruct sell; cbn; lia)).
  destruct (program_loop _ _ _ _ _) as [[ops outs] fin]. exists ops, outs, fin. split; [reflexivity|]. intros w ->. exact X.
Qed.
Lemma program_never_trades m dbg coins prices :
  (forall p, In p prices -> 0 < p /\ (1000 | p) /\ ~ (10000 | p)) ->
  exists ops outs e, program m dbg coins prices = Done (ops, outs, Finished e) /\ position_quantity (ex_pos e) = 0 /\ wallet_of e = 100000 /\
    forall y, In y outs -> (exists x, y = Ok (OutUpdates x)) \/ y = Err (EOrder InvalidQuantityStepSize).
Proof.
  intros L. destruct (program_is m dbg coins prices) as (e0 & Hi & ->). destruct (program_start dbg e0 Hi) as (R & I & P & W).
  destruct (loop_never_trades dbg coins prices 0 e0 L R I P W) as (ops & outs & e & H1 & H2 & H3 & H4 & H5). exists ops, outs, e. rewrite H1. auto.
Qed.
