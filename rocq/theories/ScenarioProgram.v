(** Runs of the example program. *)
From Verif Require Import Base Types Accounting Filters Currency Position OrderBook OrderMargin MarketUpdate Exchange Helpers Spec Program SpecProgram.

(** Each of the prices, given in tenths, 100 times: every one of them is traded at once. *)
Definition plateaus (l : list Z) : list Z := flat_map (fun p => repeat (p * 1000) 100) l.
(** [n] times 100 equal prices. *)
Definition flat_market (p : Z) (n : nat) : list Z := plateaus (repeat p n).

Definition always_buy : Z -> bool := fun _ => false.
Definition always_sell : Z -> bool := fun _ => true.
(** Buy twice, then sell. *)
Definition turn_around : Z -> bool := fun i => 100 <? i.

Definition fin_of (x : outcome (list op * list (result error out) * ending)) : option ending :=
  match x with Done (_, _, f) => Some f | Panic _ => None end.
Definition outs_of (x : outcome (list op * list (result error out) * ending)) : list (result error out) :=
  match x with Done (_, r, _) => r | Panic _ => [] end.
Definition ops_of (x : outcome (list op * list (result error out) * ending)) : list op :=
  match x with Done (o, _, _) => o | Panic _ => [] end.
Definition accepted (x : outcome (list op * list (result error out) * ending)) : nat :=
  length (filter (fun r => match r with Ok (OutMarket _) => true | _ => false end) (outs_of x)).

(** Prices, mostly around 5000.0, at which a tenth of what is left after selling always buys a whole number of contracts; then 0.1. *)
Definition spending : list Z :=
  [50000; 50000; 50000; 50000; 55205; 59221; 50000; 43341; 42741; 50000; 50846; 50000; 50000; 50000; 50000; 48373; 43551;
   50000; 48501; 65359; 50000; 43379; 55533; 54115; 50000; 50000; 51932; 50000; 50000; 52017; 50000; 50000; 50000; 23301;
   46595; 49004; 50000; 53202; 47541; 49697; 50000; 50000; 50000; 50000; 43299; 50000; 50633; 46479; 50000; 50000; 50000;
   51064; 50000; 50000; 50000; 51613; 50000; 52000; 50000; 50000; 50000; 50000; 46667; 46154; 50000; 45455; 50000; 1].
