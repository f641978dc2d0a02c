(** Property C100: the texts of errors and of executed market orders. *)
From Coq Require Import String.
From Verif Require Import Base Types Position OrderBook OrderMargin MarketUpdate Exchange Spec SpecConfig SpecMarket SpecPanic Printed SpecPrinted Messages SpecMessages Scenario ScenarioPanic MessagesProof MessagesFacts.
Open Scope string_scope.

(** C100: two errors of the crate have the same text exactly if they are the same, apart from the id of an unknown order; and the text for an order
    that would have been executed at once tells its price and the quote. *)
Theorem C100_errors : forall num p a e p' a' e', plain num -> error_text num p a e = error_text num p' a' e' <-> gist p a e = gist p' a' e'.
Proof. exact text_error. Qed.
Print Assumptions C100_errors.

Example C100_errors_case : exists e x e1 e2, valid_config (L true) /\ history (L true) [quote 100 101 1] e x /\
  step (L true) e (OpLimit Buy (d 101) (d 1) 1) = Done (e1, Err (EOrder GoodTillCrossingRejectedOrder)) /\
  error_text show_int 101 101 (ACall (EOrder GoodTillCrossingRejectedOrder)) =
    "The limit order `RePricing` was `GoodTillCrossing` leading to its rejection as the limit_price 101 Quote locks or crosses the away market quotation price 101 Quote" /\
  step (L true) e (OpLimit Buy (d 99) (d 100) 1) = Done (e2, Err (ERisk NotEnoughAvailableBalance)) /\
  error_text show_int 99 101 (ACall (ERisk NotEnoughAvailableBalance)) = "The `Trader` does not have enough balance.".
Proof. exact error_case. Qed.

(** C100: the text of an executed market order tells all of it. *)
Theorem C100_market_order : forall k num usr o o', plain num -> plain usr -> print_market_order k num usr o = print_market_order k num usr o' <-> o = o'.
Proof. exact text_order. Qed.
Print Assumptions C100_market_order.

Example C100_market_order_case :
  print_market_order Linear show_int show_int {| fm_uid := 4; fm_side := Sell; fm_qty := 3; fm_id := 7; fm_ts := 8; fm_exec_ts := 9; fm_avg := 100; fm_filled := 3 |} =
  "user_order_id: 4, side: Sell, quantity: 3 Base, state: Filled( meta: ExchangeOrderMeta( id: 7, ts_ns_exchange_received: 8), ts_ns_executed: 9, avg_fill_price: 100 Quote, filled_qty: 3 Base)".
Proof. reflexivity. Qed.

(** C100, refuted for unknown orders: the text does not say which id was not found. *)
Theorem C100_unknown_refuted : exists e x, valid_config (L true) /\ history (L true) [quote 100 101 1] e x /\
  step (L true) e (OpCancel (ByOrderId 7)) = Done (e, Err (EOrderIdNotFound 7)) /\ step (L true) e (OpCancel (ByOrderId 8)) = Done (e, Err (EOrderIdNotFound 8)) /\
  forall num p a, error_text num p a (ACall (EOrderIdNotFound 7)) = error_text num p a (ACall (EOrderIdNotFound 8)).
Proof. exact unknown_case. Qed.
Print Assumptions C100_unknown_refuted.
