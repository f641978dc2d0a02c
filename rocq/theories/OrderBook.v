(** The vector of active limit orders and operations on a single limit order. *)
From Verif Require Import Base Types Currency.

(** src/active_limit_orders.rs:95-100, [get_by_id]. *)
Definition get_by_id (book : list limit_order) (id : Z) : option limit_order :=
  find (fun o => lo_id o =? id) book.

(** Assignment through the reference found by [get_mut_by_id] (src/active_limit_orders.rs:105-110):
    replaces the first order with the given id. *)
Fixpoint replace_by_id (book : list limit_order) (id : Z) (new : limit_order) : list limit_order :=
  match book with
  | [] => []
  | o :: rest => if lo_id o =? id then new :: rest else o :: replace_by_id rest id new
  end.

(** src/active_limit_orders.rs:71-90, [insert]; [cap] is the capacity of the vector. *)
Definition book_insert (cap : Z) (book : list limit_order) (o : limit_order)
  : list limit_order * result error (option limit_order) :=
  match get_by_id book (lo_id o) with
  | Some existing => (replace_by_id book (lo_id o) o, Ok (Some existing))
  | None =>
      if cap <=? Z.of_nat (length book) then (book, Err EMaxNumberOfActiveOrders)
      else (book ++ [o], Ok None)
  end.

(** [Iterator::position] *)
Fixpoint position_of (p : limit_order -> bool) (book : list limit_order) : option nat :=
  match book with
  | [] => None
  | o :: rest => if p o then Some O else option_map S (position_of p rest)
  end.

(** [Vec::swap_remove(pos)]: the element at [pos] is replaced by the last one. *)
Definition swap_remove (book : list limit_order) (pos : nat) : list limit_order :=
  let last_idx := Nat.pred (length book) in
  if Nat.eqb pos last_idx then removelast book
  else
    match nth_error book last_idx with
    | Some l => firstn pos book ++ l :: skipn (S pos) (removelast book)
    | None => book
    end.

(** Shared body of src/active_limit_orders.rs:115-127 and 132-144. *)
Definition remove_by (p : limit_order -> bool) (book : list limit_order)
  : option (limit_order * list limit_order) :=
  match position_of p book with
  | None => None
  | Some pos =>
      match nth_error book pos with
      | Some o => Some (o, swap_remove book pos)
      | None => None
      end
  end.

(** src/active_limit_orders.rs:115-127, [remove_by_order_id]. *)
Definition remove_by_order_id (book : list limit_order) (id : Z)
  : option (limit_order * list limit_order) :=
  remove_by (fun o => lo_id o =? id) book.

(** src/active_limit_orders.rs:132-144, [remove_by_user_order_id]. *)
Definition remove_by_user_order_id (book : list limit_order) (uid : Z)
  : option (limit_order * list limit_order) :=
  remove_by (fun o => lo_uid o =? uid) book.

(** src/types/limit_order.rs:160-172, [into_pending]. *)
Definition limit_into_pending (o : new_limit) (id ts : Z) : limit_order :=
  {| lo_uid := nl_uid o; lo_side := nl_side o; lo_price := nl_price o; lo_rem := nl_rem o;
     lo_id := id; lo_ts := ts; lo_filled := Unfilled |}.

(** src/types/limit_order.rs:176-179, [set_remaining_quantity]. *)
Definition set_remaining_quantity (o : new_limit) (q : Z) : outcome new_limit :=
  _ <- assert (0 <? q) PSetRemaining ;;
  Done {| nl_uid := nl_uid o; nl_side := nl_side o; nl_price := nl_price o; nl_rem := q |}.

(** src/types/limit_order.rs:267-275, [filled_quantity]. *)
Definition lo_filled_qty (o : limit_order) : Z :=
  match lo_filled o with Unfilled => 0 | FilledQ cum _ => cum end.

(** src/types/limit_order.rs:278-291, [total_quantity] of a pending order. *)
Definition lo_total_quantity (o : limit_order) : outcome Z :=
  let q := match lo_filled o with
           | Unfilled => lo_rem o
           | FilledQ cum _ => lo_rem o + cum
           end in
  _ <- assert (0 <? q) PTotalQuantity ;;
  Done q.

(** src/types/limit_order.rs:194-264, [fill]: the mutated order and the filled order, if any. *)
Definition order_fill (s : Z) (o : limit_order) (q ts : Z)
  : outcome (limit_order * option filled_limit) :=
  _ <- assert (q <=? lo_rem o) PFillTooLarge ;;
  _ <- assert (0 <? q) PFillNonPos ;;
  let price := lo_price o in
  match lo_filled o with
  | Unfilled =>
      let o' := {| lo_uid := lo_uid o; lo_side := lo_side o; lo_price := lo_price o;
                   lo_rem := lo_rem o - q; lo_id := lo_id o; lo_ts := lo_ts o;
                   lo_filled := FilledQ q price |} in
      if q =? lo_rem o then
        Done (o', Some {| fl_uid := lo_uid o; fl_side := lo_side o; fl_price := lo_price o;
                          fl_rem := 0; fl_id := lo_id o; fl_ts := lo_ts o; fl_exec_ts := ts;
                          fl_avg := price; fl_qty := q |})
      else Done (o', None)
  | FilledQ cum avg =>
      let new_qty := cum + q in
      avg' <- new_weighted_price s avg cum price q ;;
      let o' := {| lo_uid := lo_uid o; lo_side := lo_side o; lo_price := lo_price o;
                   lo_rem := lo_rem o - q; lo_id := lo_id o; lo_ts := lo_ts o;
                   lo_filled := FilledQ new_qty avg' |} in
      if lo_rem o - q =? 0 then
        Done (o', Some {| fl_uid := lo_uid o; fl_side := lo_side o; fl_price := lo_price o;
                          fl_rem := 0; fl_id := lo_id o; fl_ts := lo_ts o; fl_exec_ts := ts;
                          fl_avg := price; fl_qty := new_qty |})
      else Done (o', None)
  end.
