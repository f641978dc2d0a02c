(** Property C70: what a build without overflow checks does when a number does not fit. *)
From Verif Require Import Base Types Accounting Currency Position OrderBook OrderMargin Tracker Exchange Spec SpecConfig SpecPanic SpecBound
  Scenario ScenarioPanic Width Fixed SpecFixed ScenarioFixed Wrapped SpecWrapped SpecFits FitsProof Release SpecRelease ScenarioRelease
  ScenarioBound BoundFacts ReleaseFacts.

(** C70: such a build does exactly what the build with overflow checks does, as long as that one meets no overflow. *)
Theorem C70_checked_same : forall w c ops x, 0 < w -> w_play w c ops = Fine x -> rb_play w c ops = Fine x.
Proof. exact release_follows_checked. Qed.
Print Assumptions C70_checked_same.
(** C70: it also does what C68 says, as long as nothing but a ledger total overflows. *)
Theorem C70_wrapped_same : forall w c ops x, 0 < w -> c_dbg c = false -> v_play w c ops = Fine x -> rb_play w c ops = Fine x.
Proof. exact release_follows_wrapped. Qed.
Print Assumptions C70_wrapped_same.
(** C70: within the limits of C64 it behaves like the exchange over unbounded integers. *)
Theorem C70_bounded : forall w c P V T ops,
  0 < w -> valid_config c -> config_in c P V T (2 ^ (w - 1)) -> volume ops <= V ->
  (forall o, In o ops -> call_in P T (2 ^ (w - 1)) o) -> affordable c P V (2 ^ (w - 1)) ops ->
  10001 * (Z.of_nat (length ops) + 1) < 2 ^ 64 ->
  rb_play w c ops = Fine (u_play c ops).
Proof. exact release_bounded. Qed.
Print Assumptions C70_bounded.
(** C70: whatever wraps around, every number stored or returned is a machine integer of its type. *)
Theorem C70_machine_integers : forall w c ops e outs,
  0 < w -> in_range w (c_start c) -> Forall (machine_integer w) (flat_map op_numbers ops) ->
  rb_play w c ops = Fine (Done (e, outs)) -> Forall (machine_integer w) (state_numbers e ++ flat_map out_numbers outs).
Proof. exact release_numbers_play. Qed.
Print Assumptions C70_machine_integers.
(** C70: whatever wraps around, debits and credits of all accounts agree up to a multiple of [2 ^ w]. *)
Theorem C70_double_entry : forall w c ops e outs,
  0 < w -> rb_play w c ops = Fine (Done (e, outs)) -> exists k, total_debits e = total_credits e + k * 2 ^ w.
Proof. exact release_double_entry. Qed.
Print Assumptions C70_double_entry.
(** C70: whatever wraps around, the two lists of resting orders are the same list, of admissible length, with distinct ids and
    with positive prices and remaining quantities. *)
Theorem C70_resting_orders : forall w c ops e outs,
  0 <= c_max c <= 10000 -> Z.of_nat (length ops) < 2 ^ 64 -> rb_play w c ops = Fine (Done (e, outs)) ->
  ex_om e = ex_active e /\ Z.of_nat (length (ex_active e)) <= c_max c /\ NoDup (map lo_id (ex_active e)) /\
  forall o, In o (ex_active e) -> 0 < lo_price o /\ 0 < lo_rem o /\ lo_id o < ex_next_id e.
Proof. exact release_books. Qed.
Print Assumptions C70_resting_orders.
(** C70: the funding check of a market order without opposite position lets every order pass whose margin and fee fit the type
    while their sum does not, whatever the wallet holds. *)
Theorem C70_unfunded_check : forall w c qty price wallet n,
  0 < w -> 0 <= wallet -> convert_from (c_kind c) (c_scale c) qty price = Done n -> in_range w n ->
  in_range w (dmul (c_scale c) n (ct_imr (c_spec c))) -> in_range w (dmul (c_scale c) n (ct_taker (c_spec c))) ->
  2 ^ (w - 1) <= dmul (c_scale c) n (ct_imr (c_spec c)) + dmul (c_scale c) n (ct_taker (c_spec c)) ->
  rb_check_market_open w c qty price wallet = Fine (Done (Ok tt)).
Proof. exact unfunded_open. Qed.
Print Assumptions C70_unfunded_check.
(** C70, refuted with [i32], [i64] and [i128]: "no position is larger than the account can pay".  Without leverage an account buys
    for more than 200 times its capital in one accepted order, and its wallet becomes negative. *)
Theorem C70_funded_positions_refuted : forall w, In w [32; 64; 128] ->
  exists c ops e outs i, valid_config c /\ c_dbg c = false /\ in_range w (c_start c) /\ Forall (machine_integer w) (flat_map op_numbers ops) /\
    rb_play w c ops = Fine (Done (e, outs)) /\ forallb is_ok outs = true /\
    ex_pos e = Long i /\ 200 * c_start c < dmul (c_scale c) (pi_qty i) (pi_entry i) /\ ct_imr (c_spec c) = c_scale c /\
    v_balance w (ex_acc e) WALLET < 0 /\
    exists e' outs', u_play c ops = Done (e', outs' ++ [Err (ERisk NotEnoughAvailableBalance)]).
Proof. exact greedy_accepted. Qed.
Print Assumptions C70_funded_positions_refuted.
(** C70, refuted: "an open position has a positive quantity".  Two accepted sales leave a short position of negative size, and the
    next order panics. *)
Theorem C70_positive_positions_refuted : forall w, In w [32; 64; 128] ->
  exists c ops e outs i, valid_config c /\ c_dbg c = false /\ in_range w (c_start c) /\ Forall (machine_integer w) (flat_map op_numbers ops) /\
    rb_play w c ops = Fine (Done (e, outs)) /\ forallb is_ok outs = true /\ ex_pos e = Short i /\ pi_qty i < 0 /\
    rb_play w c (ops ++ [OpMarket Buy (d 1) 3]) = Overflow.
Proof. exact oversold_negative. Qed.
Print Assumptions C70_positive_positions_refuted.
(** C70, refuted: "the order margin account reserves the value of the resting orders".  Without leverage the accepted orders are
    worth more than 200 times what is reserved. *)
Theorem C70_reserved_orders_refuted : forall w, In w [32; 64; 128] ->
  exists c ops e outs, valid_config c /\ c_dbg c = false /\ in_range w (c_start c) /\ Forall (machine_integer w) (flat_map op_numbers ops) /\
    rb_play w c ops = Fine (Done (e, outs)) /\ forallb is_ok outs = true /\
    200 * v_balance w (ex_acc e) ORDER_MARGIN < sumZ (map (fun o => dmul (c_scale c) (lo_rem o) (lo_price o)) (ex_active e)) /\
    ct_imr (c_spec c) = c_scale c /\
    exists e' outs', u_play c ops = Done (e', outs' ++ [Err (ERisk NotEnoughAvailableBalance)]).
Proof. exact order_unreserved. Qed.
Print Assumptions C70_reserved_orders_refuted.

(** The history of C62 with fills, an amend, a flip and a liquidation in 26 bits, and in 31 bits, where it is within the limits of C64. *)
Example C70_nonvacuous :
  returns (w_play 26 (demo_cfg Linear true) demo_ops) = true /\
  rb_play 26 (demo_cfg Linear true) demo_ops = w_play 26 (demo_cfg Linear true) demo_ops /\
  returns (v_play 32 (demo_cfg Linear false) (idle_ops 300)) = true /\
  rb_play 32 (demo_cfg Linear false) (idle_ops 300) = v_play 32 (demo_cfg Linear false) (idle_ops 300).
Proof. split; [vm_compute; reflexivity|]. split; [vm_compute; reflexivity|]. split; vm_compute; reflexivity. Qed.
Example C70_bounded_nonvacuous :
  valid_config (demo_cfg Linear true) /\ config_in (demo_cfg Linear true) (d 161) (d 15) 6 (2 ^ (31 - 1)) /\ volume demo_ops <= d 15 /\
  (forall o, In o demo_ops -> call_in (d 161) 6 (2 ^ (31 - 1)) o) /\ affordable (demo_cfg Linear true) (d 161) (d 15) (2 ^ (31 - 1)) demo_ops /\
  rb_play 31 (demo_cfg Linear true) demo_ops = Fine (u_play (demo_cfg Linear true) demo_ops).
Proof.
  destruct demo_bounded as (H1 & H2 & H3 & H4 & H5 & _). split; [exact H1|]. split; [exact H2|]. split; [exact H3|].
  split; [exact H4|]. split; [exact H5|]. vm_compute; reflexivity.
Qed.
(** After an overflow the conclusions about numbers, ledger and orders still have something to say. *)
Example C70_after_overflow :
  in_range 32 (c_start (demo_cfg Linear false)) /\ Forall (machine_integer 32) (flat_map op_numbers (free_order 32 ++ greedy 32)) /\
  overflows (w_play 32 (demo_cfg Linear false) (free_order 32)) = true /\
  overflows (v_play 32 (demo_cfg Linear false) (free_order 32)) = true /\
  exists e outs, rb_play 32 (demo_cfg Linear false) (free_order 32) = Fine (Done (e, outs)) /\
    map lo_rem (ex_active e) = [d 5; d 2190].
Proof.
  split; [vm_compute; split; discriminate|]. split; [apply numbers_ok; vm_compute; reflexivity|].
  split; [vm_compute; reflexivity|]. split; [vm_compute; reflexivity|].
  eexists _, _. split; [vm_compute; reflexivity|]. vm_compute; reflexivity.
Qed.
(** The sums of debits and of credits do not have to be equal: when the ledger wraps around in one account only, they differ by [2 ^ w]. *)
Example C70_double_entry_wraps :
  exists e outs, rb_play 32 (demo_cfg Linear false) (idle_ops 240) = Fine (Done (e, outs)) /\
    total_debits e = total_credits e + (- 1) * 2 ^ 32.
Proof. eexists _, _. split; [vm_compute; reflexivity|]. vm_compute; reflexivity. Qed.
(** Margin 214700 and fee 128.82 fit 32 bits with four decimals, their sum does not; nothing at all is in the wallet. *)
Example C70_unfunded_nonvacuous :
  let c := demo_cfg Linear false in let n := d 214700 in
  convert_from (c_kind c) (c_scale c) (d 2147) (d 100) = Done n /\ in_range 32 n /\
  in_range 32 (dmul (c_scale c) n (ct_imr (c_spec c))) /\ in_range 32 (dmul (c_scale c) n (ct_taker (c_spec c))) /\
  2 ^ (32 - 1) <= dmul (c_scale c) n (ct_imr (c_spec c)) + dmul (c_scale c) n (ct_taker (c_spec c)) /\
  rb_check_market_open 32 c (d 2147) (d 100) 0 = Fine (Done (Ok tt)) /\ overflows (w_check_market_open 32 c (d 2147) (d 100) 0) = true.
Proof.
  cbv zeta. split; [vm_compute; reflexivity|]. do 3 (split; [vm_compute; split; discriminate|]).
  split; [vm_compute; discriminate|]. split; vm_compute; reflexivity.
Qed.
