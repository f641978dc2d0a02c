(** Loading recorded trades and handing trades to the trade aggregation library. *)
From Coq Require Import String.
From Verif Require Import Base Types MarketUpdate.

(** A record of the file after its three columns are parsed: milliseconds, price, size.  Reading the file and
    parsing integers and decimals (crates [csv] and [const_decimal]) is not modelled. *)
Record csv_row := { cr_ms : Z; cr_price : Z; cr_size : Z }.

(** src/load_trades_from_csv.rs:25-29: the first three column names; a missing one is an index out of range. *)
Definition check_header (head : list string) : outcome unit :=
  match head with
  | a :: b :: c :: _ => assert (String.eqb a "timestamp" && String.eqb b "price" && String.eqb c "size") PCsvHeader
  | _ => Panic PCsvHeader
  end.

(** src/load_trades_from_csv.rs:32-56, the body of the loop.  Overflow of the nanoseconds: Derived.v. *)
Definition load_row (r : csv_row) : outcome trade :=
  _ <- assert (negb (cr_size r =? 0)) PCsvSize ;;
  Done {| tr_price := cr_price r; tr_qty := cr_size r; tr_side := if cr_size r <? 0 then Sell else Buy;
          tr_ts := cr_ms r * 1000000 |}.
Fixpoint load_rows (rows : list csv_row) : outcome (list trade) :=
  match rows with
  | [] => Done []
  | r :: rest => t <- load_row r ;; ts <- load_rows rest ;; Done (t :: ts)
  end.

(** src/load_trades_from_csv.rs:17-60, [load_trades_from_csv]. *)
Definition load_trades (head : list string) (rows : list csv_row) : outcome (list trade) :=
  _ <- check_header head ;; load_rows rows.

(** src/trade_aggregation.rs:22-27, [TakerTrade::size]: the decimal before its conversion to [f64]. *)
Definition taker_size (t : trade) : Z := match tr_side t with Buy => tr_qty t | Sell => - tr_qty t end.

(** src/trade_aggregation.rs:10-20 and 30-42, [timestamp], [price] and [Into<trade_aggregation::Trade>]. *)
Record agg_trade := { ag_ts : Z; ag_price : Z; ag_size : Z }.
Definition into_agg (t : trade) : agg_trade := {| ag_ts := tr_ts t; ag_price := tr_price t; ag_size := taker_size t |}.
