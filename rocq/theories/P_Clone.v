(** C66: copies of an exchange. *)
From Verif Require Import Base Types MarketUpdate Exchange Spec SpecConfig Clone SpecClone Scenario ScenarioClone CloneProof CloneFacts.

(** The allocated sizes of a new exchange never matter: with them and with the debug assertion about
    them, every history has the outcome it has without them. *)
Theorem C66_original_unaffected : forall c ops,
  valid_config c ->
  seen (x <- x_init c ;; x_run c x (map XCall ops)) = (e <- init c ;; run c e ops).
Proof. exact (fun c ops V => original_same c ops (vc_max _ V)). Qed.
Print Assumptions C66_original_unaffected.

(** What is allocated: room for 10000 orders in the book and for as many as configured in the two other vectors; in a copy, room for
    the orders it holds and for no ids. *)
Theorem C66_room : forall c,
  (forall x, x_init c = Done x -> x_caps x = {| cap_arena := 10000; cap_tracked := c_max c; cap_ids := c_max c |}) /\
  (forall x, valid_config c -> x_reachable c x ->
     x_caps (x_clone x) = {| cap_arena := resting x; cap_tracked := resting x; cap_ids := 0 |}).
Proof. exact (fun c => conj (proj1 (rooms c)) (fun x V => proj2 (rooms c) x (vc_max _ V))). Qed.
Print Assumptions C66_room.

(** In a release build a copy behaves as an exchange in the same state whose configured limit is the
    number of orders that rest at the moment of the copy. *)
Theorem C66_copy_release : forall c x ops,
  valid_config c -> c_dbg c = false -> x_reachable c x ->
  seen (x_run c (x_clone x) (map XCall ops)) = run (with_max c (resting x)) (x_ex x) ops.
Proof. exact (fun c x ops V => clone_release c x ops (vc_max _ V)). Qed.
Print Assumptions C66_copy_release.

(** In any build this is so as long as the copy does not panic. *)
Theorem C66_copy_returns : forall c x ops x' outs,
  valid_config c -> x_reachable c x ->
  x_run c (x_clone x) (map XCall ops) = Done (x', outs) ->
  run (with_max c (resting x)) (x_ex x) ops = Done (x_ex x', outs).
Proof. exact (fun c x ops x' outs V => clone_done c x ops x' outs (vc_max _ V)). Qed.
Print Assumptions C66_copy_returns.

(** A copy, and a copy of a copy, never holds more orders than rested when it was taken. *)
Theorem C66_copy_bounded : forall c x l x' outs,
  valid_config c -> x_reachable c x -> x_run c (x_clone x) l = Done (x', outs) -> resting x' <= resting x.
Proof. exact (fun c x l x' outs V => clone_bounded c x l x' outs (vc_max _ V)). Qed.
Print Assumptions C66_copy_bounded.

(** Every limit order that the original would accept, its copy refuses as one order too many. *)
Theorem C66_copy_refuses : forall c x sd p q uid x1 o,
  valid_config c -> x_reachable c x ->
  x_call c x (OpLimit sd p q uid) = Done (x1, Ok o) ->
  exists x2, x_call c (x_clone x) (OpLimit sd p q uid) = Done (x2, Err EMaxNumberOfActiveOrders) /\
             ex_active (x_ex x2) = ex_active (x_ex x) /\ ex_acc (x_ex x2) = ex_acc (x_ex x).
Proof. exact (fun c x sd p q uid x1 o V => clone_refuses c x sd p q uid x1 o (vc_max _ V)). Qed.
Print Assumptions C66_copy_refuses.

(** In a debug build a copy panics at market data that the original takes without a complete fill. *)
Theorem C66_copy_debug : forall c x r x1 l,
  valid_config c -> 0 < c_max c -> c_dbg c = true -> x_reachable c x -> can_trade r ->
  x_call c x (OpUpdate r) = Done (x1, Ok (OutUpdates l)) -> (forall y, ~ In (FullyFilled y) l) ->
  x_call c (x_clone x) (OpUpdate r) = Panic PIdsCapacityDebug.
Proof. exact (fun c x r x1 l V Hm => clone_debug c x r x1 l (conj Hm (proj2 (vc_max _ V)))). Qed.
Print Assumptions C66_copy_debug.

(** Exactly when: the copy takes the same market data, with the same result, if its vector of ids grows to the configured number of
    orders, and panics otherwise.  It grows by the number of complete fills to 4, 8, 16 and so on. *)
Theorem C66_copy_debug_exact : forall c x r x1 l,
  valid_config c -> c_dbg c = true -> x_reachable c x -> can_trade r ->
  x_call c x (OpUpdate r) = Done (x1, Ok (OutUpdates l)) ->
  seen (x_call c (x_clone x) (OpUpdate r)) =
    if grown (completed l) =? c_max c then Done (x_ex x1, Ok (OutUpdates l)) else Panic PIdsCapacityDebug.
Proof. exact (fun c x r x1 l V => clone_debug_exact c x r x1 l (vc_max _ V)). Qed.
Print Assumptions C66_copy_debug_exact.

(** One complete fill: a copy of an exchange for 4 orders goes on, of an exchange for 8 orders it panics. *)
Example C66_copy_debug_exact_case : forall n, n = 4 \/ n = 8 -> valid_config (with_limit n) /\
  match with_copies (with_limit n) two_orders with
  | Done (x, _) =>
      x_reachable (with_limit n) x /\
      match x_call (with_limit n) x (OpUpdate filling_trade), x_call (with_limit n) (x_clone x) (OpUpdate filling_trade) with
      | Done (x1, Ok (OutUpdates l)), Done (x2, Ok (OutUpdates l2)) => n = 4 /\ completed l = 1%nat /\ l2 = l /\ x_ex x2 = x_ex x1 /\ cap_ids (x_caps x2) = 4
      | Done (_, Ok (OutUpdates l)), Panic PIdsCapacityDebug => n = 8 /\ completed l = 1%nat
      | _, _ => False
      end
  | Panic _ => False
  end.
Proof. exact copy_growth. Qed.

(** So a copy is not interchangeable with its original: witnesses for both builds. *)
Theorem C66_interchangeable_refuted :
  ~ (forall c x o, valid_config c -> x_reachable c x -> seen (x_call c (x_clone x) o) = seen (x_call c x o)).
Proof. exact not_interchangeable. Qed.
Print Assumptions C66_interchangeable_refuted.

(** The hypotheses hold: two orders rest, the original takes a third one and a trade that fills
    nothing; the copy refuses the order, and in a debug build the trade stops it. *)
Example C66_nonvacuous : forall dbg, valid_config (demo_cfg Linear dbg) /\
  match with_copies (demo_cfg Linear dbg) two_orders with
  | Done (x, _) =>
      x_reachable (demo_cfg Linear dbg) x /\ resting x = 2 /\
      (exists x1 o, x_call (demo_cfg Linear dbg) x (OpLimit Buy (d 98) (d 1) 9) = Done (x1, Ok o)) /\
      (exists x2, x_call (demo_cfg Linear dbg) (x_clone x) (OpLimit Buy (d 98) (d 1) 9) = Done (x2, Err EMaxNumberOfActiveOrders)) /\
      (exists x3, x_call (demo_cfg Linear dbg) x (OpUpdate idle_trade) = Done (x3, Ok (OutUpdates []))) /\
      (if dbg then x_call (demo_cfg Linear dbg) (x_clone x) (OpUpdate idle_trade) = Panic PIdsCapacityDebug
       else exists x4, x_call (demo_cfg Linear dbg) (x_clone x) (OpUpdate idle_trade) = Done (x4, Ok (OutUpdates [])))
  | Panic _ => False
  end.
Proof. exact copy_example. Qed.
