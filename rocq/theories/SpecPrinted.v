(** What is asked of the way numbers are printed, and what the printed texts leave out. *)
From Coq Require Import String Ascii.
From Verif Require Import Base Types Position OrderBook MarketUpdate Exchange.
Open Scope string_scope.

(** Characters around the numbers in the texts. *)
Definition separator (a : ascii) : bool := (Ascii.eqb a " " || Ascii.eqb a "," || Ascii.eqb a ")")%char.
Fixpoint solid (s : string) : Prop := match s with EmptyString => True | String a r => separator a = false /\ solid r end.
(** Different numbers are printed differently and without separators. *)
Definition plain (num : Z -> string) : Prop := (forall x y, num x = num y -> x = y) /\ (forall x, solid (num x)).

(** What the text of an update is about. *)
Inductive told := ToldBba (bid ask : Z) | ToldTrade (price qty : Z) (sd : side) | ToldCandle (bid ask high low : Z) | ToldSmart (buys sells : nat) (ts : Z).
Definition tells (u : market_update) : told :=
  match u with
  | UBba b => ToldBba (bb_bid b) (bb_ask b)
  | UTrade t => ToldTrade (tr_price t) (tr_qty t) (tr_side t)
  | UCandle x => ToldCandle (cd_bid x) (cd_ask x) (cd_high x) (cd_low x)
  | USmart x => ToldSmart (length (sc_buys x)) (length (sc_sells x)) (sc_ts x)
  end.
(** What the text of a position is about: direction, quantity and entry price. *)
Inductive stance := Flat | Held (long : bool) (qty entry : Z).
Definition stance_of (p : position) : stance :=
  match p with Neutral => Flat | Long i => Held true (pi_qty i) (pi_entry i) | Short i => Held false (pi_qty i) (pi_entry i) end.
