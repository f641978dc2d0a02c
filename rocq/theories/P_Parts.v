(** Property C80: the parts of the exchange for any arguments, also those that the exchange never passes. *)
From Coq Require Import Permutation.
From Verif Require Import Base Types Accounting Currency Position OrderBook OrderMargin Tracker Stats SpecParts Scenario ScenarioParts PartsProof PartsMoney.

(** Looking up an order gives the first one with that id. *)
Theorem C80_get : forall b i,
  (forall o, get_by_id b i = Some o <-> exists l r, first_in (has_id i) b l o r) /\ (get_by_id b i = None <-> none_in (has_id i) b).
Proof. exact get_exact. Qed.
Print Assumptions C80_get.

(** Inserting replaces the first order with the same id and reports it; a new order goes to the end unless the book is full. *)
Theorem C80_insert : forall cap b o,
  (forall l old r, first_in (has_id (lo_id o)) b l old r -> book_insert cap b o = (l ++ o :: r, Ok (Some old))) /\
  (none_in (has_id (lo_id o)) b ->
     (cap <= Z.of_nat (length b) -> book_insert cap b o = (b, Err EMaxNumberOfActiveOrders)) /\
     (Z.of_nat (length b) < cap -> book_insert cap b o = (b ++ [o], Ok None))).
Proof. exact insert_exact. Qed.
Print Assumptions C80_insert.

(** Removing takes out the first order with that id; the last order takes its place. *)
Theorem C80_remove : forall b i u,
  (forall l o r, first_in (has_id i) b l o r -> exists b', remove_by_order_id b i = Some (o, b') /\ closed_up l r b') /\
  (remove_by_order_id b i = None <-> none_in (has_id i) b) /\
  (forall l o r, first_in (has_uid u) b l o r -> exists b', remove_by_user_order_id b u = Some (o, b') /\ closed_up l r b') /\
  (remove_by_user_order_id b u = None <-> none_in (has_uid u) b).
Proof. exact remove_exact. Qed.
Print Assumptions C80_remove.

(** The margin of an order may only shrink: an update with nothing left, with the same order or with no less of it panics. *)
Theorem C80_update : forall cap b o,
  (lo_rem o <= 0 -> om_update cap b o = Panic POmUpdateRemaining) /\
  (0 < lo_rem o ->
     (forall l old r, first_in (has_id (lo_id o)) b l old r ->
        (old = o -> om_update cap b o = Panic POmUpdateSame) /\
        (old <> o -> lo_rem old <= lo_rem o -> om_update cap b o = Panic POmUpdateNotLess) /\
        (lo_rem o < lo_rem old -> om_update cap b o = Done (l ++ o :: r, Ok tt))) /\
     (none_in (has_id (lo_id o)) b ->
        (cap <= Z.of_nat (length b) -> om_update cap b o = Done (b, Err EMaxNumberOfActiveOrders)) /\
        (Z.of_nat (length b) < cap -> om_update cap b o = Done (b ++ [o], Ok tt)))).
Proof. exact update_exact. Qed.
Print Assumptions C80_update.

(** Removing an order that is not there panics. *)
Theorem C80_om_remove : forall b by_,
  (forall l o r, first_in (named by_) b l o r -> exists b', om_remove b by_ = Done b' /\ closed_up l r b') /\
  (none_in (named by_) b -> om_remove b by_ = Panic POmRemove).
Proof. exact om_remove_exact. Qed.
Print Assumptions C80_om_remove.

(** Sorting rearranges, in order, and keeps elements with the same key as they were. *)
Theorem C80_sort : forall A (key : A -> Z) l,
  Permutation l (sort_by_key key l) /\ increasing key (sort_by_key key l) /\
  forall k, filter (fun x => key x =? k) (sort_by_key key l) = filter (fun x => key x =? k) l.
Proof. exact sort_exact. Qed.
Print Assumptions C80_sort.

(** A position of [n] offsets the first [n] contracts of the orders against it: of each order that much is left. *)
Theorem C80_offset : forall l n, (forall p q, In (p, q) l -> 0 <= q) -> forall a p q b, l = a ++ (p, q) :: b ->
  length (offset_orders n l) = length l /\
  nth_error (offset_orders n l) (length a) = Some (p, Z.max 0 (q - Z.max 0 (n - total a))).
Proof. exact offset_exact. Qed.
Print Assumptions C80_offset.

(** A transaction needs a positive amount and two accounts. *)
Theorem C80_transaction : forall d c x,
  (x <= 0 -> transaction_new d c x = Panic PTxAmount) /\
  (0 < x -> d = c -> transaction_new d c x = Panic PTxSameAccount) /\
  (0 < x -> d <> c -> transaction_new d c x = Done {| tx_debit := d; tx_credit := c; tx_amount := x |}).
Proof. exact transaction_exact. Qed.
Print Assumptions C80_transaction.

(** A transfer posts the amount to both, also if the account is overdrawn by it; checked builds notice books that did not balance. *)
Theorem C80_transfer : forall dbg acc d c x, d <> c -> pays dbg acc d c x (transfer dbg acc d c x) (fun a => a).
Proof. exact transfer_pays. Qed.
Print Assumptions C80_transfer.

(** A new position pays its initial margin out of the wallet. *)
Theorem C80_new_position : forall c acc q p f,
  (q <= 0 -> inner_new c acc q p f = Panic PNewPosQty) /\
  (0 < q -> p <= 0 -> inner_new c acc q p f = Panic PNewPosPrice) /\
  (0 < q -> 0 < p -> pays (c_dbg c) acc POSITION_MARGIN WALLET (initial c q p) (inner_new c acc q p f)
     (fun a => ({| pi_qty := q; pi_entry := p; pi_fees := f |}, a))).
Proof. exact new_exact. Qed.
Print Assumptions C80_new_position.

(** So does what is added to a position; the entry price is averaged. *)
Theorem C80_increase : forall c i acc q p f,
  (q <= 0 -> increase_contracts c i acc q p f = Panic PIncQty) /\
  (0 < q -> p <= 0 -> increase_contracts c i acc q p f = Panic PIncPrice) /\
  (0 < q -> 0 < p -> pi_qty i + q = 0 -> increase_contracts c i acc q p f = Panic PDivByZero) /\
  (0 < q -> 0 < p -> pi_qty i + q <> 0 -> pays (c_dbg c) acc POSITION_MARGIN WALLET (initial c q p) (increase_contracts c i acc q p f)
     (fun a => ({| pi_qty := pi_qty i + q; pi_entry := averaged (c_scale c) (pi_entry i) (pi_qty i) p q; pi_fees := pi_fees i + f |}, a))).
Proof. exact increase_exact. Qed.
Print Assumptions C80_increase.

(** Taking from a position settles the profit, releases the initial margin at the entry price and pays the fees outstanding, if any. *)
Theorem C80_decrease : forall c i acc q p long f,
  (q <= 0 -> decrease_contracts c i acc q p long f = Panic PDecQty) /\
  (0 < q -> pi_qty i < q -> decrease_contracts c i acc q p long f = Panic PDecQtyTooLarge) /\
  (0 < q <= pi_qty i -> 0 < c_scale c -> 0 < pi_entry i -> 0 < p -> ~ noticed (c_dbg c) acc ->
     let x := initial c q (pi_entry i) in let fees := pi_fees i + f in
     (x <= 0 -> decrease_contracts c i acc q p long f = Panic (if c_dbg c then PMarginToFreeDebug else PTxAmount)) /\
     (0 < x -> exists a1 a2 a3,
        settled acc (gained c (pi_entry i) p (if long then q else - q)) a1 /\ posted a1 WALLET POSITION_MARGIN x a2 /\
        (0 < fees -> posted a2 FEE WALLET fees a3) /\ (fees <= 0 -> a3 = a2) /\
        decrease_contracts c i acc q p long f = Done ({| pi_qty := pi_qty i - q; pi_entry := pi_entry i; pi_fees := Z.min 0 fees |}, a3))).
Proof. exact decrease_exact. Qed.
Print Assumptions C80_decrease.

(** Quantities of an order. *)
Theorem C80_remaining : forall o q,
  (q <= 0 -> set_remaining_quantity o q = Panic PSetRemaining) /\
  (0 < q -> set_remaining_quantity o q = Done {| nl_uid := nl_uid o; nl_side := nl_side o; nl_price := nl_price o; nl_rem := q |}).
Proof. exact remaining_exact. Qed.
Print Assumptions C80_remaining.
Theorem C80_total : forall o, let all := lo_rem o + lo_filled_qty o in
  (all <= 0 -> lo_total_quantity o = Panic PTotalQuantity) /\ (0 < all -> lo_total_quantity o = Done all).
Proof. exact total_exact. Qed.
Print Assumptions C80_total.

(** A fill takes at least something and at most what remains; the report follows with the last of it. *)
Theorem C80_fill : forall s o q ts,
  (lo_rem o < q -> order_fill s o q ts = Panic PFillTooLarge) /\
  (q <= lo_rem o -> q <= 0 -> order_fill s o q ts = Panic PFillNonPos) /\
  (0 < q <= lo_rem o ->
     (lo_filled o = Unfilled -> order_fill s o q ts =
        Done (fill_leaves o q (FilledQ q (lo_price o)), if q =? lo_rem o then Some (fill_report o ts q) else None)) /\
     (forall cum avg, lo_filled o = FilledQ cum avg ->
        (cum + q = 0 -> order_fill s o q ts = Panic PDivByZero) /\
        (cum + q <> 0 -> order_fill s o q ts =
           Done (fill_leaves o q (FilledQ (cum + q) (averaged s avg cum (lo_price o) q)), if q =? lo_rem o then Some (fill_report o ts (cum + q)) else None)))).
Proof. exact fill_exact. Qed.
Print Assumptions C80_fill.

(** The tracker needs a positive balance to start from and positive quantities; it adds the value to the volume of the side. *)
Theorem C80_tracker : forall start t c sd p q,
  (start <= 0 -> tracker_new start = Panic PTrackerStart) /\ (0 < start -> exists t, tracker_new start = Done t) /\
  (q <= 0 -> log_trade c t sd p q = Panic PLogTradeQty) /\
  (0 < q -> 0 < p -> exists t', log_trade c t sd p q = Done t' /\
     tk_buy_volume t' = tk_buy_volume t + (match sd with Buy => worth c q p | Sell => 0 end) /\
     tk_sell_volume t' = tk_sell_volume t + (match sd with Buy => 0 | Sell => worth c q p end)).
Proof. exact tracker_exact. Qed.
Print Assumptions C80_tracker.

(** The share of bought volume panics just with a negative volume. *)
Theorem C80_volume_ratio : forall c t, let b := tk_buy_volume t in let v := tk_sell_volume t in
  (b < 0 \/ v < 0 -> buy_volume_ratio c t = Panic PVolumeRatio) /\
  (b = 0 -> v = 0 -> buy_volume_ratio c t = Done None) /\
  (0 <= b -> 0 <= v -> 0 < b + v -> buy_volume_ratio c t = Done (Some (Z.quot (b * c_scale c) (b + v)))).
Proof. exact ratio_exact. Qed.
Print Assumptions C80_volume_ratio.

(** A book with an id and a user id given twice. *)
Example C80_book :
  get_by_id crowded 1 = Some (resting 1 7 5) /\ get_by_id crowded 4 = None /\
  book_insert 4 crowded (resting 1 9 3) = ([resting 1 9 3; resting 2 7 6; resting 1 8 7; resting 3 9 8], Ok (Some (resting 1 7 5))) /\
  book_insert 4 crowded (resting 4 9 3) = (crowded, Err EMaxNumberOfActiveOrders) /\
  remove_by_user_order_id crowded 7 = Some (resting 1 7 5, [resting 3 9 8; resting 2 7 6; resting 1 8 7]) /\
  remove_by_order_id crowded 3 = Some (resting 3 9 8, [resting 1 7 5; resting 2 7 6; resting 1 8 7]) /\
  om_update 9 crowded (resting 1 7 5) = Panic POmUpdateSame /\ om_update 9 crowded (resting 1 7 6) = Panic POmUpdateNotLess /\
  om_update 9 crowded (resting 2 7 1) = Done ([resting 1 7 5; resting 2 7 1; resting 1 8 7; resting 3 9 8], Ok tt) /\
  om_remove crowded (ByUserOrderId 6) = Panic POmRemove /\
  sort_by_key fst [(3, 1); (1, 2); (3, 3); (2, 4); (1, 5)] = [(1, 2); (1, 5); (2, 4); (3, 1); (3, 3)] /\
  offset_orders 6 [(1, 2); (2, 5); (3, 7)] = [(1, 0); (2, 1); (3, 7)].
Proof. vm_compute. repeat split. Qed.

(** A purchase of 2 at 100 out of a wallet of 100, which overdraws it; then a sale of 1 at 90 with fees outstanding. *)
Example C80_money :
  let c := demo_cfg Linear true in
  match inner_new c (some_accounts (d 100) (d 100)) (d 2) (d 100) (d 1) with
  | Done (i, a) => margin_balance_of a WALLET = - d 100 /\
      match decrease_contracts c i a (d 1) (d 90) true 0 with
      | Done (j, b) => j = {| pi_qty := d 1; pi_entry := d 100; pi_fees := 0 |} /\ margin_balance_of b WALLET = - d 11 /\
          margin_balance_of b TREASURY = - d 90 /\ margin_balance_of b POSITION_MARGIN = d 100 /\ margin_balance_of b FEE = d 1
      | Panic _ => False
      end
  | Panic _ => False
  end /\
  inner_new c (some_accounts (d 100) (d 99)) (d 2) (d 100) (d 1) = Panic PAccountingEquation /\
  (exists x, inner_new (demo_cfg Linear false) (some_accounts (d 100) (d 99)) (d 2) (d 100) (d 1) = Done x) /\
  transaction_new FEE FEE 1 = Panic PTxSameAccount.
Proof. vm_compute. repeat split; try discriminate. eexists. reflexivity. Qed.
