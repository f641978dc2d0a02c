(** Margin requirement of the resting orders. *)
From Verif Require Import Base Types Accounting Currency Position OrderBook.

(** How orders are identified for removal, src/exchange.rs:32-35. *)
Inductive cancel_by := ByOrderId (id : Z) | ByUserOrderId (uid : Z).

(** src/order_margin.rs:41-60, [update]; [cap] is the capacity of the tracked book.
    The book is modified before the assertions, so on [Err] it is unchanged. *)
Definition om_update (cap : Z) (book : list limit_order) (o : limit_order)
  : outcome (list limit_order * result error unit) :=
  _ <- assert (0 <? lo_rem o) POmUpdateRemaining ;;
  match book_insert cap book o with
  | (book', Err e) => Done (book', Err e)
  | (book', Ok None) => Done (book', Ok tt)
  | (book', Ok (Some old)) =>
      _ <- assert (if limit_order_eq_dec old o then false else true) POmUpdateSame ;;
      _ <- assert (lo_rem o <? lo_rem old) POmUpdateNotLess ;;
      Done (book', Ok tt)
  end.

(** src/order_margin.rs:63-76, [remove]. *)
Definition om_remove (book : list limit_order) (by_ : cancel_by) : outcome (list limit_order) :=
  match (match by_ with
         | ByOrderId id => remove_by_order_id book id
         | ByUserOrderId uid => remove_by_user_order_id book uid
         end) with
  | Some (_, book') => Done book'
  | None => Panic POmRemove
  end.

(** [slice::sort_by_key] is a stable sort; modelled by stable insertion sort on integer keys. *)
Fixpoint insert_by {A} (key : A -> Z) (x : A) (l : list A) : list A :=
  match l with
  | [] => [x]
  | y :: rest => if key x <=? key y then x :: l else y :: insert_by key x rest
  end.
Fixpoint sort_by_key {A} (key : A -> Z) (l : list A) : list A :=
  match l with
  | [] => []
  | x :: rest => insert_by key x (sort_by_key key rest)
  end.

(** The filter/map of src/order_margin.rs:99-111: (limit price, remaining quantity) of one side. *)
Definition side_orders (sd : side) (book : list limit_order) : list (Z * Z) :=
  map (fun o => (lo_price o, lo_rem o))
      (filter (fun o => if side_eq_dec (lo_side o) sd then true else false) book).

(** The offset loops src/order_margin.rs:128-139 and 142-153. *)
Fixpoint offset_orders (outstanding : Z) (orders : list (Z * Z)) : list (Z * Z) :=
  match orders with
  | [] => []
  | (price, q) :: rest =>
      if 0 <? outstanding then
        (price, umax (q - outstanding) 0) :: offset_orders (outstanding - umin q outstanding) rest
      else orders
  end.

(** The value sums src/order_margin.rs:157-165. *)
Fixpoint orders_value (k : kind) (s : Z) (orders : list (Z * Z)) : outcome Z :=
  match orders with
  | [] => Done 0
  | (price, q) :: rest =>
      v <- convert_from k s q price ;;
      vs <- orders_value k s rest ;;
      Done (v + vs)
  end.

(** src/order_margin.rs:88-168, [order_margin_internal]. *)
Definition order_margin_internal (c : config) (book : list limit_order) (pos : position)
  (new_order : option limit_order) : outcome Z :=
  let k := c_kind c in
  let s := c_scale c in
  let imr := ct_imr (c_spec c) in
  _ <- debug_assert (c_dbg c) (imr <=? s) PImrDebug ;;
  let extra sd := match new_order with
                  | Some o => if side_eq_dec (lo_side o) sd then [(lo_price o, lo_rem o)] else []
                  | None => []
                  end in
  let buys := sort_by_key (fun o => - fst o) (side_orders Buy book ++ extra Buy) in
  let sells := sort_by_key (fun o => fst o) (side_orders Sell book ++ extra Sell) in
  let buys' := match pos with Short i => offset_orders (pi_qty i) buys | _ => buys end in
  let sells' := match pos with Long i => offset_orders (pi_qty i) sells | _ => sells end in
  buy_value <- orders_value k s buys' ;;
  sell_value <- orders_value k s sells' ;;
  Done (dmul s (umax buy_value sell_value) imr).

(** src/order_margin.rs:79-85, [order_margin]. *)
Definition order_margin (c : config) (book : list limit_order) (pos : position) : outcome Z :=
  order_margin_internal c book pos None.

(** src/order_margin.rs:171-183, [order_margin_with_order]. *)
Definition order_margin_with_order (c : config) (book : list limit_order) (pos : position)
  (o : limit_order) : outcome Z :=
  order_margin_internal c book pos (Some o).
