(** When an accounting keeps books as the exchange expects. *)
From Verif Require Import Base Types Accounting Exchange SpecMargin Ledger.

(** The pairs (debit, credit) the exchange moves money between. *)
Definition moves (d k : account_id) : Prop :=
  match d, k with
  | POSITION_MARGIN, WALLET | WALLET, POSITION_MARGIN     (* margin of the position *)
  | ORDER_MARGIN, WALLET | WALLET, ORDER_MARGIN           (* margin of the orders *)
  | WALLET, TREASURY | TREASURY, WALLET                   (* profit and loss *)
  | FEE, WALLET => True                                   (* fees *)
  | _, _ => False
  end.

(** The money of the user is in the wallet, booked against the treasury. *)
Definition opening (start : Z) (id : account_id) : Z := match id with WALLET => start | TREASURY => - start | _ => 0 end.
(** The accounting answers every balance in a state that is [ok]; it starts with the money in the wallet; and a positive transfer
    between two accounts the exchange uses moves that amount.  Nothing is asked of other states and other transfers. *)
Record lawful {A} (L : accounting A) (start : Z) (ok : A -> Prop) : Prop := {
  law_new : exists a, a_new L start = Done a /\ ok a /\
    forall id, a_balance L a id = Done (Ok (opening start id));
  law_transfer : forall a d k amt, ok a -> moves d k -> 0 < amt ->
    exists a', a_transfer L a {| tx_debit := d; tx_credit := k; tx_amount := amt |} = Done (a', Ok tt) /\ ok a' /\
      forall id v, a_balance L a id = Done (Ok v) ->
        a_balance L a' id = Done (Ok (if account_id_eq_dec id d then v + amt else if account_id_eq_dec id k then v - amt else v))
}.

(** The same state, and the balances of the accounting are those of the accounts. *)
Definition same_rest (e e' : exchange) : Prop := set_acc e (ex_acc e') = e'.
Definition same_balances {A} (L : accounting A) (a : A) (acc : accounts) : Prop :=
  forall id, a_balance L a id = Done (Ok (margin_balance_of acc id)).

(** An accounting that also writes down every transaction. *)
Definition recording {A} (L : accounting A) : accounting (A * list transaction) :=
  {| a_new := fun start => a <- a_new L start ;; Done (a, []);
     a_transfer := fun b tx => '(a, r) <- a_transfer L (fst b) tx ;; Done ((a, snd b ++ [tx]), r);
     a_balance := fun b id => a_balance L (fst b) id;
     a_expect := a_expect L |}.
(** What a list of transactions adds to an account. *)
Fixpoint booked (l : list transaction) (id : account_id) : Z :=
  match l with
  | [] => 0
  | tx :: r => (if account_id_eq_dec id (tx_debit tx) then tx_amount tx else 0) - (if account_id_eq_dec id (tx_credit tx) then tx_amount tx else 0) + booked r id
  end.
Definition regular (tx : transaction) : Prop := 0 < tx_amount tx /\ moves (tx_debit tx) (tx_credit tx).

(** ** What holds whatever the accounting does *)
(** The arena of resting orders and the book of the margin are one list; its orders have distinct ids that were given out, have a
    quantity and a price, and are not too many; an open position has a size. *)
Definition in_order (c : config) (e : exchange) : Prop :=
  ex_active e = ex_om e /\
  NoDup (map lo_id (ex_active e)) /\
  (forall o, In o (ex_active e) -> lo_id o < ex_next_id e /\ 0 < lo_rem o /\ 0 < lo_price o) /\
  Z.of_nat (length (ex_active e)) <= c_max c /\
  sized (ex_pos e).

(** The same state but for what the tracker sampled. *)
Definition like (e e' : exchange) : Prop := exists t, e' = set_trk e t.
Definition okay {X Y} (r : result X Y) : bool := match r with Ok _ => true | Err _ => false end.
(** Results that are the same unless they are errors. *)
Definition alike (r r' : result error out) : Prop := match r, r' with Ok x, Ok y => x = y | _, _ => True end.

(** Nothing was traded. *)
Definition quiet (r : result error out) : Prop :=
  match r with Ok (OutMarket _) => False | Ok (OutUpdates l) => l = [] | _ => True end.
(** Every transfer fails. *)
Definition refusing {A} (L : accounting A) : Prop :=
  forall a tx a' r, a_transfer L a tx = Done (a', r) -> okay r = false.
