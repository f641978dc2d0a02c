(** Property C71: market updates of a user's own type. *)
From Verif Require Import Base Types Accounting Position OrderMargin MarketUpdate Exchange Custom Spec SpecConfig SpecMarket SpecMachine SpecCustom Scenario ScenarioCustom CustomProof CustomFacts.

(** The code is generic over the type of the update; for the types of the crate it is the exchange of Exchange.v, state, result and
    panics included. *)
Theorem C71_own_types : forall c e u,
  x_update c e (custom_of (c_dbg c) u) = update_state c e u /\
  x_check c e (custom_of (c_dbg c) u) = check_active_orders c e u.
Proof. exact (fun c e u => conj (custom_update c e u) (custom_check c e u)). Qed.
Print Assumptions C71_own_types.

(** A history of ordinary calls only is a mixed history. *)
Theorem C71_ordinary_history : forall c e ops, x_run c e (map XCall ops) = run c e ops.
Proof. exact (fun c e ops => ordinary_is_mixed c ops e). Qed.
Print Assumptions C71_ordinary_history.

(** Whatever kinds of updates came before, an update of any kind that returns moves the market as the update says, then either closes a
    position that is due at the new quote or fills each resting order by what the update answers for it, and reports just that. *)
Theorem C71_update : forall c e k e' r,
  valid_config c -> mixed_reachable c e -> x_step c e (XUpdate k) = Done (e', r) ->
  exists ms, cu_market k (ex_ms e) = Done ms /\ x_moved c k ms (machine_of e) = (machine_of e', r).
Proof. exact mixed_update. Qed.
Print Assumptions C71_update.

(** The public [check_active_orders] fills and reports by the same rule, without moving the market; if the update can fill, the wallet
    is not negative afterwards. *)
Theorem C71_check : forall c e k e' r,
  valid_config c -> mixed_reachable c e -> x_step c e (XCheck k) = Done (e', r) ->
  machine_of e' = x_meet_all c k (machine_of e) /\ r = Ok OutUnit /\ ex_updates e' = x_reports c k (ex_active e) /\
  (cu_can k = true -> 0 <= wallet_of e').
Proof. exact mixed_check. Qed.
Print Assumptions C71_check.

(** An update that answers zero, a negative quantity or more than rests for any order cannot get through. *)
Theorem C71_answers : forall c e k e' r o,
  x_step c e (XCheck k) = Done (e', r) -> cu_can k = true -> In o (ex_active e) -> sensible k o.
Proof. exact mixed_answers. Qed.
Print Assumptions C71_answers.

(** Ordinary calls keep to the reference machine in every state that such updates can lead to. *)
Theorem C71_calls : forall c e o e' r,
  valid_config c -> mixed_reachable c e -> x_step c e (XCall o) = Done (e', r) ->
  m_call c (machine_of e) o = (machine_of e', r).
Proof. exact mixed_ordinary. Qed.
Print Assumptions C71_calls.

(** No update can break the double entry, make the two books differ, leave an order with nothing open, or exceed the limit. *)
Theorem C71_books : forall c e,
  valid_config c -> mixed_reachable c e ->
  debit_sum (ex_acc e) = credit_sum (ex_acc e) /\
  ex_om e = ex_active e /\ NoDup (map lo_id (ex_active e)) /\ Z.of_nat (length (ex_active e)) <= c_max c /\
  (forall o, In o (ex_active e) -> 0 < lo_rem o /\ 0 < lo_price o /\ 0 <= lo_id o < ex_next_id e).
Proof. exact mixed_books. Qed.
Print Assumptions C71_books.

(** Halves of uncrossed orders on both sides are filled at their limit prices, a later update of another type fills the rest of the sell
    order, and a last one liquidates; an answer that is too large panics. *)
Example C71_nonvacuous :
  let c := demo_cfg Linear false in
  match play_mixed c mixed_ops with
  | Done (e, outs) => map (fun r => match r with
                                    | Ok (OutUpdates l) => Some (map (fun x => match x with
                                                                               | PartiallyFilled o => (false, lo_id o, lo_rem o)
                                                                               | FullyFilled o => (true, fl_id o, fl_qty o) end) l)
                                    | _ => None end) outs
                      = [Some []; None; None;
                         Some [(false, 0, d 1); (false, 1, 5000)];
                         None; None; None;
                         Some [(true, 3, 5000)];
                         None] /\
                      position_quantity (ex_pos e) = 0 /\ length (ex_active e) = 1%nat
  | Panic _ => False
  end /\
  match play_mixed c (mixed_book ++ [XUpdate (too_much 2)]) with Panic w => w = PFillTooLarge | Done _ => False end.
Proof. vm_compute. repeat split. Qed.
