(** What the parts of the exchange do for any arguments. *)
From Verif Require Import Base Types Accounting Position OrderBook OrderMargin Tracker.

(** [o] is the first order in [b] with property [p]; [l] stands before it, [r] after it. *)
Definition first_in (p : limit_order -> Prop) (b l : list limit_order) (o : limit_order) (r : list limit_order) : Prop :=
  b = l ++ o :: r /\ p o /\ forall x, In x l -> ~ p x.
Definition none_in (p : limit_order -> Prop) (b : list limit_order) : Prop := forall x, In x b -> ~ p x.
Definition has_id (i : Z) (o : limit_order) : Prop := lo_id o = i.
Definition has_uid (u : Z) (o : limit_order) : Prop := lo_uid o = u.
Definition named (by_ : cancel_by) : limit_order -> Prop := match by_ with ByOrderId i => has_id i | ByUserOrderId u => has_uid u end.
(** The book without the order between [l] and [r]: the last one takes its place. *)
Definition closed_up (l r : list limit_order) (b : list limit_order) : Prop :=
  (r = [] /\ b = l) \/ (exists r' z, r = r' ++ [z] /\ b = l ++ z :: r').

(** The sum of quantities. *)
Fixpoint total (l : list (Z * Z)) : Z := match l with [] => 0 | (_, q) :: r => q + total r end.
(** Later elements do not have smaller keys. *)
Fixpoint increasing {A} (key : A -> Z) (l : list A) : Prop :=
  match l with [] => True | x :: r => (forall y, In y r -> key x <= key y) /\ increasing key r end.

(** [b] is [a] with [x] debited to [d] and credited to [c]. *)
Definition posted (a : accounts) (d c : account_id) (x : Z) (b : accounts) : Prop :=
  forall i, ta_debits (get_account b i) = ta_debits (get_account a i) + (if account_id_eq_dec i d then x else 0) /\
            ta_credits (get_account b i) = ta_credits (get_account a i) + (if account_id_eq_dec i c then x else 0).
Definition all_accounts : list account_id := [WALLET; ORDER_MARGIN; POSITION_MARGIN; FEE; BROKER; TREASURY].
Definition sum_of (f : account_id -> Z) : Z := fold_right (fun i s => f i + s) 0 all_accounts.
Definition balanced (a : accounts) : Prop :=
  sum_of (fun i => ta_debits (get_account a i)) = sum_of (fun i => ta_credits (get_account a i)).
(** Checked builds notice books that do not balance. *)
Definition noticed (dbg : bool) (a : accounts) : Prop := dbg = true /\ ~ balanced a.

(** A quantity at a price in margin currency, and the initial margin of it. *)
Definition worth (c : config) (q p : Z) : Z :=
  match c_kind c with Linear => Z.quot (q * p) (c_scale c) | Inverse => Z.quot (q * c_scale c) p end.
Definition initial (c : config) (q p : Z) : Z := Z.quot (worth c q p * ct_imr (c_spec c)) (c_scale c).
(** The average price of [w0] at [p0] and [w1] at [p1] in decimals. *)
Definition averaged (s p0 w0 p1 w1 : Z) : Z := Z.quot ((Z.quot (p0 * w0) s + Z.quot (p1 * w1) s) * s) (w0 + w1).
(** The profit of closing [q] that was entered at [entry], negative [q] if it was sold. *)
Definition gained (c : config) (entry price q : Z) : Z :=
  match c_kind c with Linear => worth c q price - worth c q entry | Inverse => worth c q entry - worth c q price end.

(** A call that pays [x] from [from] to [to_] and gives [done] then. *)
Definition pays {A} (dbg : bool) (acc : accounts) (to_ from : account_id) (x : Z) (m : outcome A) (done : accounts -> A) : Prop :=
  (x <= 0 -> m = Panic PTxAmount) /\
  (0 < x -> noticed dbg acc -> m = Panic PAccountingEquation) /\
  (0 < x -> ~ noticed dbg acc -> exists acc', posted acc to_ from x acc' /\ m = Done (done acc')).
(** A profit comes from the treasury, a loss goes there. *)
Definition settled (a : accounts) (profit : Z) (b : accounts) : Prop :=
  (0 < profit -> posted a WALLET TREASURY profit b) /\ (profit < 0 -> posted a TREASURY WALLET (- profit) b) /\ (profit = 0 -> b = a).

(** An order after a fill of [q] and, if nothing is left, the report. *)
Definition fill_leaves (o : limit_order) (q : Z) (fs : filled_quantity) : limit_order :=
  {| lo_uid := lo_uid o; lo_side := lo_side o; lo_price := lo_price o; lo_rem := lo_rem o - q; lo_id := lo_id o; lo_ts := lo_ts o; lo_filled := fs |}.
Definition fill_report (o : limit_order) (ts all : Z) : filled_limit :=
  {| fl_uid := lo_uid o; fl_side := lo_side o; fl_price := lo_price o; fl_rem := 0; fl_id := lo_id o; fl_ts := lo_ts o; fl_exec_ts := ts;
     fl_avg := lo_price o; fl_qty := all |}.
