(** Property C88: several limit orders one after the other. *)
From Coq Require Import Permutation.
From Verif Require Import Base Types Position SpecMarket OrderBook OrderMargin MarketUpdate Exchange Spec SpecConfig SpecMargin SpecPanic SpecMachine SpecBatch Scenario ScenarioPanic BatchProof UndoProof ScenarioBatch BatchFacts.

(** Orders sent one after the other are all accepted, without a panic, exactly if each of them is fine in itself, there are places for all of them and the
    wallet together with what is reserved covers the margin of the whole book. *)
Theorem C88_exactly : forall c e l, valid_config c -> reachable c e -> in_sync c e ->
  ((exists e', accepts c e l e') <->
   (forall t, In t l -> suits c e t) /\
   (l <> [] -> Z.of_nat (length (ex_active e) + length l) <= c_max c /\
               need c (book_with e l) (position_quantity (ex_pos e)) <= wallet_of e + order_margin_of e)).
Proof. exact batch_exactly. Qed.
Print Assumptions C88_exactly.

(** Four orders of which the wallet could carry more, then one that takes exactly the rest of it, and one that takes a little more. *)
Example C88_exactly_case : match play batch_cfg batch_start with
  | Done (e, _) => in_sync batch_cfg e /\ length (ex_active e) = 1%nat /\ position_quantity (ex_pos e) = d 1 /\ wallet_of e + order_margin_of e = d 899 /\
      need batch_cfg (book_with e batch) (d 1) = d 781 /\
      need batch_cfg (book_with e (batch ++ [bid_for (d 59) (d 2) 7])) (d 1) = d 899 /\
      match run batch_cfg e (map sent (batch ++ [bid_for (d 59) (d 2) 7])) with Done (e', _) => wallet_of e' = 0 /\ length (ex_active e') = 6%nat | _ => False end /\
      match run batch_cfg e (map sent (batch ++ [bid_for (d 59) 21000 7])) with
      | Done (e', outs) => wallet_of e' = d 118 /\ nth 4 outs (Ok OutUnit) = Err (ERisk NotEnoughAvailableBalance) | _ => False end
  | _ => False end.
Proof. vm_compute. repeat split. Qed.

(** The answers, the book and the accounts afterwards: only the reservation has changed. *)
Theorem C88_result : forall c e l e', valid_config c -> reachable c e -> in_sync c e -> accepts c e l e' ->
  run c e (map sent l) = Done (e', map (fun o => Ok (OutLimit o)) (entered (ms_ts (ex_ms e)) (ex_next_id e) l)) /\
  ex_active e' = book_with e l /\ in_sync c e' /\ order_margin_of e' = need c (book_with e l) (position_quantity (ex_pos e)) /\
  wallet_of e' + order_margin_of e' = wallet_of e + order_margin_of e /\ statement_of e' = statement_of e /\ position_margin_of e' = position_margin_of e /\
  ex_next_id e' = ex_next_id e + Z.of_nat (length l).
Proof. exact batch_result. Qed.
Print Assumptions C88_result.

Example C88_result_case : match play batch_cfg (batch_start ++ map sent batch) with
  | Done (e', outs) => map lo_id (ex_active e') = [1; 2; 3; 4; 5] /\ order_margin_of e' = d 781 /\ wallet_of e' = d 118 /\ length outs = 7%nat
  | _ => False end.
Proof. vm_compute. repeat split. Qed.

(** Their order does not matter, unless prices are tied, there is a position to hedge and values round. *)
Theorem C88_any_order : forall c e l l' e1, valid_config c -> reachable c e -> in_sync c e -> Permutation l l' ->
  (ex_pos e = Neutral \/ no_ties (book_with e l) \/ exists g, exact_book (c_kind c) (c_scale c) g (position_quantity (ex_pos e)) (book_with e l)) -> accepts c e l e1 ->
  exists e2, accepts c e l' e2 /\ wallet_of e2 = wallet_of e1 /\ order_margin_of e2 = order_margin_of e1 /\ statement_of e2 = statement_of e1 /\
    position_margin_of e2 = position_margin_of e1 /\ ex_next_id e2 = ex_next_id e1 /\ Permutation (map shape (ex_active e2)) (map shape (ex_active e1)).
Proof. exact batch_any_order. Qed.
Print Assumptions C88_any_order.

Example C88_any_order_case : Permutation batch batch' /\ match play batch_cfg batch_start with
  | Done (e, _) => map (fun sd => map fst (pairs sd (book_with e batch))) [Buy; Sell] = [[d 98; d 99; d 97]; [d 103; d 104]] /\
      match run batch_cfg e (map sent batch), run batch_cfg e (map sent batch') with
      | Done (e1, _), Done (e2, _) => wallet_of e2 = wallet_of e1 /\ map lo_uid (ex_active e1) = [2; 3; 4; 5; 6] /\ map lo_uid (ex_active e2) = [2; 5; 6; 3; 4]
      | _, _ => False end
  | _ => False end.
Proof. split; [exact batch_swapped | vm_compute; repeat split]. Qed.

(** Then any part of the orders, in any order, is accepted as well, and leaves no less in the wallet. *)
Theorem C88_fewer : forall c e l l1 l2 e1, valid_config c -> reachable c e -> in_sync c e -> Permutation l (l1 ++ l2) ->
  (ex_pos e = Neutral \/ no_ties (book_with e l) \/ exists g, exact_book (c_kind c) (c_scale c) g (position_quantity (ex_pos e)) (book_with e l)) -> accepts c e l e1 ->
  exists e2, accepts c e l1 e2 /\ wallet_of e1 <= wallet_of e2.
Proof. exact batch_fewer. Qed.
Print Assumptions C88_fewer.

Example C88_fewer_case : match play batch_cfg (batch_start ++ map sent [offer (d 104) (d 6) 5; bid_for (d 97) (d 5) 6]) with
  | Done (e', outs) => length (ex_active e') = 3%nat /\ order_margin_of e' = d 583 /\ wallet_of e' = d 316
  | _ => False end.
Proof. vm_compute. repeat split. Qed.

(** With ties, a position and rounding the order matters: of two orders at one price the second is rejected in one of the two orders. *)
Theorem C88_any_order_refuted : forall dbg, exists e outs e1 outs1 e2 outs2, history (tiny Linear dbg) tie_start e outs /\ in_sync (tiny Linear dbg) e /\
  Permutation tie_batch tie_batch' /\ run (tiny Linear dbg) e (map sent tie_batch) = Done (e1, outs1) /\ (forall r, In r outs1 -> exists o, r = Ok o) /\
  run (tiny Linear dbg) e (map sent tie_batch') = Done (e2, outs2) /\ In (Err (ERisk NotEnoughAvailableBalance)) outs2.
Proof. exact tie_order. Qed.
Print Assumptions C88_any_order_refuted.

(** Orders can be cancelled one after the other in any order, under the same condition on the book: no cancel panics or fails, the others are left
    and the margin that is reserved is the one of the others. *)
Theorem C88_cancel : forall c e l, valid_config c -> reachable c e -> in_sync c e ->
  (ex_pos e = Neutral \/ no_ties (ex_active e) \/ exists g, exact_book (c_kind c) (c_scale c) g (position_quantity (ex_pos e)) (ex_active e)) ->
  NoDup l -> (forall i, In i l -> In i (map lo_id (ex_active e))) ->
  exists e' outs, run c e (map dropped l) = Done (e', outs) /\ (forall r, In r outs -> exists o, r = Ok o) /\ Permutation (ex_active e') (without l (ex_active e)) /\
    in_sync c e' /\ order_margin_of e' = need c (without l (ex_active e)) (position_quantity (ex_pos e)) /\
    wallet_of e' + order_margin_of e' = wallet_of e + order_margin_of e /\ order_margin_of e' <= order_margin_of e /\
    statement_of e' = statement_of e /\ position_margin_of e' = position_margin_of e /\ ex_next_id e' = ex_next_id e.
Proof. exact cancel_many. Qed.
Print Assumptions C88_cancel.

Example C88_cancel_case : match play batch_cfg (batch_start ++ map sent batch ++ map dropped [5; 2]) with
  | Done (e', _) => map lo_id (ex_active e') = [1; 4; 3] /\ order_margin_of e' = d 624 /\ wallet_of e' = d 275
  | _ => False end.
Proof. vm_compute. repeat split. Qed.

(** A batch is undone by cancelling its orders in any order. *)
Theorem C88_undone : forall c e l e1 ids, valid_config c -> reachable c e -> in_sync c e ->
  (ex_pos e = Neutral \/ no_ties (book_with e l) \/ exists g, exact_book (c_kind c) (c_scale c) g (position_quantity (ex_pos e)) (book_with e l)) -> accepts c e l e1 ->
  Permutation ids (map lo_id (entered (ms_ts (ex_ms e)) (ex_next_id e) l)) ->
  exists e2 outs, run c e1 (map dropped ids) = Done (e2, outs) /\ (forall r, In r outs -> exists o, r = Ok o) /\ Permutation (ex_active e2) (ex_active e) /\
    wallet_of e2 = wallet_of e /\ order_margin_of e2 = order_margin_of e /\ statement_of e2 = statement_of e /\ position_margin_of e2 = position_margin_of e.
Proof. exact batch_undone. Qed.
Print Assumptions C88_undone.

Example C88_undone_case : match play batch_cfg batch_start, play batch_cfg (batch_start ++ map sent batch ++ map dropped [4; 2; 5; 3]) with
  | Done (e, _), Done (e', _) => ex_active e' = ex_active e /\ wallet_of e' = wallet_of e /\ order_margin_of e' = d 98
  | _, _ => False end.
Proof. vm_compute. repeat split. Qed.

(** With ties, a position and rounding a batch that was accepted cannot be cancelled in every order: a cancel panics. *)
Theorem C88_undone_refuted : forall dbg, exists e outs, history (tiny Linear dbg) (tie_start ++ map sent undo_batch) e outs /\ in_sync (tiny Linear dbg) e /\
  (forall r, In r (skipn 2 outs) -> exists o, r = Ok o) /\ run (tiny Linear dbg) e (map dropped [1; 2; 3]) = Panic PCancelMarginGrows.
Proof. exact tie_undone. Qed.
Print Assumptions C88_undone_refuted.
