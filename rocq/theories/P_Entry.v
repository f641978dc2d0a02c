(** Properties C10, C11, C12, C13, C14. *)
From Coq Require Import Permutation.
From Verif Require Import Base Types Position OrderBook OrderMargin Exchange Spec SpecBook SpecRules SpecConfig SpecPanic SpecEntry
  Scenario ScenarioPanic ScenarioEntry LimitProof EntryFacts.

(** C10: an accepted limit order does not cross the quote; exactly it is added to the book, unfilled, with the
    next id and the current time, and only its margin moves. *)
Theorem C10_accepted_rests : forall c e sd p q uid e' o,
  0 <= c_max c <= 10000 -> reachable c e -> step c e (OpLimit sd p q uid) = Done (e', Ok (OutLimit o)) ->
  o = fresh_order e sd p q uid /\ 0 < p /\ 0 < q /\ ~ crosses_quote e sd p /\
  ex_active e' = ex_active e ++ [o] /\ ex_next_id e' = ex_next_id e + 1 /\
  reserved e e' (order_margin_of e' - order_margin_of e).
Proof. exact limit_accepted. Qed.
Print Assumptions C10_accepted_rests.

(** C10: the result is the one the rules of [limit_verdict] give; in particular a crossing order that passes the
    filters and can be paid is rejected with GoodTillCrossingRejectedOrder. *)
Theorem C10_verdict : forall c e sd p q uid e' r,
  valid_config c -> reachable c e -> sane c e -> 0 < p -> 0 < q -> step c e (OpLimit sd p q uid) = Done (e', r) ->
  exists r', r = map_result OutLimit r' /\ limit_verdict c e sd p q uid r'.
Proof. exact limit_decision. Qed.
Print Assumptions C10_verdict.

Example C10_case : exists e outs,
  history (L true) resting_buy e outs /\
  (exists e' o, step (L true) e (OpLimit Sell (d 101) (d 1) 2) = Done (e', Ok (OutLimit o)) /\ length (ex_active e') = 2%nat) /\
  (exists e', step (L true) e (OpLimit Sell (d 100) (d 1) 2) = Done (e', Err (EOrder GoodTillCrossingRejectedOrder))) /\
  (exists e', step (L true) e (OpLimit Buy (d 99) (d 10) 2) = Done (e', Err (ERisk NotEnoughAvailableBalance))).
Proof. exact resting_accepts. Qed.

(** C11: a cancel removes exactly one order, one that is meant by the argument, and releases margin to the wallet;
    a failing cancel means there is no such order, and changes nothing. *)
Theorem C11_cancel_exact : forall c e b e' r,
  0 <= c_max c <= 10000 -> reachable c e -> step c e (OpCancel b) = Done (e', r) ->
  match r with
  | Ok (OutLimit o) =>
      In o (ex_active e) /\ meant b o /\ Permutation (ex_active e) (o :: ex_active e') /\
      (exists m, 0 <= m /\ reserved e e' (- m)) /\ ex_next_id e' = ex_next_id e
  | Err err =>
      e' = e /\ (forall o, In o (ex_active e) -> ~ meant b o) /\
      err = match b with
            | ByOrderId i => if i <? ex_next_id e then EOrderNoLongerActive else EOrderIdNotFound i
            | ByUserOrderId _ => EUserOrderIdNotFound
            end
  | _ => False
  end.
Proof. exact cancel_exact. Qed.
Print Assumptions C11_cancel_exact.

(** C11: the error tells ids that were handed out from those that were not yet. *)
Theorem C11_errors : forall c ops e outs i e' err,
  0 <= c_max c <= 10000 -> history c ops e outs -> step c e (OpCancel (ByOrderId i)) = Done (e', Err err) ->
  (In i (issued_ids ops outs) -> err = EOrderNoLongerActive) /\ (ex_next_id e <= i -> err = EOrderIdNotFound i).
Proof. exact cancel_errors. Qed.
Print Assumptions C11_errors.

Example C11_case : exists e outs,
  history (L true) resting_buy e outs /\ in_sync (L true) e /\
  exists e' o, step (L true) e (OpCancel (ByUserOrderId 1)) = Done (e', Ok (OutLimit o)) /\ lo_price o = d 90 /\
    order_margin_of e = d 90 /\ order_margin_of e' = 0.
Proof. exact resting_cancels. Qed.

(** C12: a rejected order changes nothing but the id counter and the submission counter. *)
Theorem C12_rejected_inert : forall c e o e' err,
  0 <= c_max c <= 10000 -> reachable c e ->
  match o with OpMarket _ _ _ | OpLimit _ _ _ _ => True | _ => False end ->
  step c e o = Done (e', Err err) ->
  unchanged e e' /\ ex_next_id e <= ex_next_id e' <= ex_next_id e + 1.
Proof. exact rejected_inert. Qed.
Print Assumptions C12_rejected_inert.

Theorem C12_rejected_quiet : forall c e o e' err,
  match o with OpMarket _ _ _ | OpLimit _ _ _ _ => True | _ => False end ->
  step c e o = Done (e', Err err) ->
  ex_trig e' = ex_trig e /\ exists n, 0 <= n <= 1 /\ only_submissions (ex_trk e) (ex_trk e') n.
Proof. exact rejected_quiet. Qed.
Print Assumptions C12_rejected_quiet.

(** C13: cancelling an order just accepted succeeds and restores book and account. *)
Theorem C13_round_trip : forall c e sd p q uid e1 o,
  valid_config c -> reachable c e -> in_sync c e -> step c e (OpLimit sd p q uid) = Done (e1, Ok (OutLimit o)) ->
  exists e2, step c e1 (OpCancel (ByOrderId (lo_id o))) = Done (e2, Ok (OutLimit o)) /\
    ex_active e2 = ex_active e /\ reserved e e2 0.
Proof. exact round_trip. Qed.
Print Assumptions C13_round_trip.

(** C14: an amend of an order that is not active fails like a cancel; otherwise it is a cancel followed by a
    submission of the quantity left, which is not attempted when nothing is left. *)
Theorem C14_amend_exact : forall c e i sd p q uid e' r,
  0 <= c_max c <= 10000 -> reachable c e -> 0 < p -> 0 < q -> step c e (OpAmend i sd p q uid) = Done (e', r) ->
  (forall o, In o (ex_active e) -> lo_id o <> i) /\ e' = e /\
    r = Err (if i <? ex_next_id e then EOrderNoLongerActive else EOrderIdNotFound i) \/
  exists o e1, In o (ex_active e) /\ lo_id o = i /\ step c e (OpCancel (ByOrderId i)) = Done (e1, Ok (OutLimit o)) /\
    if leaves_of o q <=? 0 then e' = e1 /\ r = Err EAmendQtyAlreadyFilled
    else step c e1 (OpLimit sd p (leaves_of o q) uid) = Done (e', r).
Proof. exact amend_exact. Qed.
Print Assumptions C14_amend_exact.

(** C14: whatever the result, the old id is gone. On success the replacement rests under a fresh id with the
    quantity left; on failure the old order is lost. *)
Theorem C14_amend_outcome : forall c e i sd p q uid e' r o,
  0 <= c_max c <= 10000 -> reachable c e -> 0 < p -> 0 < q -> In o (ex_active e) -> lo_id o = i ->
  step c e (OpAmend i sd p q uid) = Done (e', r) ->
  ~ In i (map lo_id (ex_active e')) /\
  match r with
  | Ok (OutLimit n) => 0 < leaves_of o q /\ n = fresh_order e sd p (leaves_of o q) uid /\
      Permutation (ex_active e ++ [n]) (o :: ex_active e')
  | Err err => (err = EAmendQtyAlreadyFilled <-> leaves_of o q <= 0) /\ Permutation (ex_active e) (o :: ex_active e')
  | _ => False
  end.
Proof. exact amend_outcome. Qed.
Print Assumptions C14_amend_outcome.

(** C14, refuted part: "if it is rejected, the original order is still resting". *)
Theorem C14_all_or_nothing_refuted : forall dbg, exists e outs e' err,
  history (L dbg) resting_buy e outs /\ map lo_id (ex_active e) = [0] /\
  step (L dbg) e (OpAmend 0 Buy (d 200) (d 1) 1) = Done (e', Err (EOrder err)) /\ ex_active e' = [].
Proof. exact amend_loses. Qed.
Print Assumptions C14_all_or_nothing_refuted.

Example C14_case : exists e outs,
  history (L true) (resting_buy ++ [taker Sell 89 (d 1 / 2) 2]) e outs /\
  exists o, ex_active e = [o] /\ leaves_of o (d 3) = d 5 / 2 /\
  (exists e' n, step (L true) e (OpAmend 0 Buy (d 80) (d 3) 1) = Done (e', Ok (OutLimit n)) /\ lo_rem n = d 5 / 2) /\
  exists e', step (L true) e (OpAmend 0 Buy (d 80) (d 1 / 2) 1) = Done (e', Err EAmendQtyAlreadyFilled).
Proof. exact partial_amends. Qed.
