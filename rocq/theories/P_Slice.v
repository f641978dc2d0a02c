(** Property C90: a market order in parts. *)
From Verif Require Import Base Types Accounting Position Exchange Spec SpecConfig SpecRules SpecMarket SpecSlice Scenario ScenarioPanic ScenarioSlice SliceProof SliceCor SliceFacts.

(** C90: whether a market order is given at once or in parts, the position is the same afterwards.  The parts never leave a
    higher entry price and never charge more fees; profits and fees differ by at most one and two units of the last decimal
    place for every additional part. *)
Theorem C90_same : forall c e sd uid l ew o ep outs,
  valid_config c -> reachable c e -> normal_fee c -> 0 <= due_of e -> l <> [] ->
  step c e (OpMarket sd (sumZ l) uid) = Done (ew, Ok o) -> run c e (slices sd uid l) = Done (ep, outs) -> all_ok outs ->
  position_quantity (ex_pos ep) = position_quantity (ex_pos ew) /\
  position_entry_price (ex_pos ep) <= position_entry_price (ex_pos ew) /\
  - extra l <= realised c ep - realised c ew <= extra l /\
  charged ep <= charged ew <= charged ep + 2 * extra l /\
  ex_active ep = ex_active ew /\ order_margin_of ep = order_margin_of ew.
Proof. exact parts_same. Qed.
Print Assumptions C90_same.

(** C90: when the parts add to the position, money and paid fees are the same, and the parts lock no more margin. *)
Theorem C90_adding : forall c e sd uid l ew o ep outs,
  valid_config c -> reachable c e -> l <> [] -> same_side sd (ex_pos e) = true ->
  step c e (OpMarket sd (sumZ l) uid) = Done (ew, Ok o) -> run c e (slices sd uid l) = Done (ep, outs) -> all_ok outs ->
  wealth_of ep = wealth_of ew /\ fees_paid ep = fees_paid ew /\ wallet_of ew <= wallet_of ep <= wallet_of ew + 2 * extra l.
Proof. exact parts_adding. Qed.
Print Assumptions C90_adding.

(** C90: which parts that add to the position are all accepted: each must find its margin and its own fee in the wallet that
    the margins of the parts before it left; the fees of the parts before it do not count. *)
Theorem C90_adding_exactly : forall c e sd uid l,
  valid_config c -> reachable c e -> same_side sd (ex_pos e) = true ->
  ((exists ep outs, run c e (slices sd uid l) = Done (ep, outs) /\ all_ok outs) <->
   sizes_ok c l /\ (l <> [] -> 0 < taker_price e sd) /\ margins_post c (taker_price e sd) l /\ each_funded c e (taker_price e sd) l).
Proof. exact parts_adding_exact. Qed.
Print Assumptions C90_adding_exactly.

(** C90: so if the whole is accepted, so are the parts, unless the filter refuses one or its margin rounds to nothing. *)
Theorem C90_adding_enough : forall c e sd uid l ew o,
  valid_config c -> reachable c e -> normal_fee c -> l <> [] -> same_side sd (ex_pos e) = true ->
  step c e (OpMarket sd (sumZ l) uid) = Done (ew, Ok o) -> sizes_ok c l -> margins_post c (taker_price e sd) l ->
  exists ep outs, run c e (slices sd uid l) = Done (ep, outs) /\ all_ok outs.
Proof. exact parts_enough. Qed.
Print Assumptions C90_adding_enough.

(** C90, refuted the other way round: the parts are accepted although the whole is not, and the fees due then exceed the wallet. *)
Theorem C90_whole_refuted : forall dbg, exists e outs ew ep outs',
  history (costly dbg) costly_start e outs /\ valid_config (costly dbg) /\ normal_fee (costly dbg) /\
  run (costly dbg) e (slices Buy 1 most_and_rest) = Done (ep, outs') /\ all_ok outs' /\
  step (costly dbg) e (OpMarket Buy (sumZ most_and_rest) 1) = Done (ew, Err (ERisk NotEnoughAvailableBalance)) /\ wallet_of ep < due_of ep.
Proof. exact reserve_avoided. Qed.
Print Assumptions C90_whole_refuted.

(** C90: which parts that reduce or close the position are all accepted.  A debug build also wants the margins of the parts
    that close it to add up to the margin of the position. *)
Theorem C90_reducing_exactly : forall c e sd uid l,
  valid_config c -> reachable c e -> same_side sd (ex_pos e) = false -> l <> [] ->
  (forall q, In q l -> 0 < q) -> sumZ l <= Z.abs (position_quantity (ex_pos e)) ->
  let entry := position_entry_price (ex_pos e) in
  ((exists ep outs, run c e (slices sd uid l) = Done (ep, outs) /\ all_ok outs) <->
   sizes_ok c l /\ 0 < taker_price e sd /\ margins_post c entry l /\
   (c_dbg c = true -> sumZ l = Z.abs (position_quantity (ex_pos e)) -> position_margin_of e = margins c entry l)).
Proof. exact parts_reducing_exact. Qed.
Print Assumptions C90_reducing_exactly.

(** C90, refuted for closing: a position that can be closed at once panics in a debug build when it is closed in halves; a
    release build leaves margin behind that belongs to no position. *)
Theorem C90_closing_refuted : exists e outs ew o,
  history (tiny Linear true) held_start e outs /\ sumZ halves = Z.abs (position_quantity (ex_pos e)) /\
  step (tiny Linear true) e (OpMarket Sell (sumZ halves) 1) = Done (ew, Ok o) /\ run (tiny Linear true) e (slices Sell 1 halves) = Panic PCloseMarginDebug.
Proof. exact closing_stuck. Qed.
Print Assumptions C90_closing_refuted.
Theorem C90_margin_left_refuted : exists e outs ep outs',
  history (tiny Linear false) held_start e outs /\ run (tiny Linear false) e (slices Sell 1 halves) = Done (ep, outs') /\ all_ok outs' /\
  ex_pos ep = Neutral /\ position_margin_of ep = 1.
Proof. exact closing_left. Qed.
Print Assumptions C90_margin_left_refuted.

(** C90, refuted for turning a position round: closing and then opening is refused where one order is accepted after a loss,
    and accepted where one order is refused after a win, because the check of one order knows of neither. *)
Theorem C90_flip_refuted : forall dbg,
  (exists e outs ew o ep outs', history (L dbg) lost_start e outs /\ step (L dbg) e (OpMarket Sell (d 9 + d 14) 1) = Done (ew, Ok o) /\
     run (L dbg) e (slices Sell 1 [d 9; d 14]) = Done (ep, outs') /\ In (Err (ERisk NotEnoughAvailableBalance)) outs') /\
  (exists e outs ew ep outs', history (L dbg) won_start e outs /\ step (L dbg) e (OpMarket Sell (d 5 + d 6) 1) = Done (ew, Err (ERisk NotEnoughAvailableBalance)) /\
     run (L dbg) e (slices Sell 1 [d 5; d 6]) = Done (ep, outs') /\ all_ok outs').
Proof. exact flips_differ. Qed.
Print Assumptions C90_flip_refuted.

(** 0.6 contracts at 0.5 with one decimal place: bought in halves the entry price is 0.3 and the margin 0.2, at once 0.5 and 0.3. *)
Example C90_case : exists e outs ew o ep outs', history (tiny Linear true) cheap_start e outs /\ valid_config (tiny Linear true) /\ normal_fee (tiny Linear true) /\ due_of e = 0 /\
  same_side Buy (ex_pos e) = true /\
  step (tiny Linear true) e (OpMarket Buy (sumZ halves) 1) = Done (ew, Ok o) /\ run (tiny Linear true) e (slices Buy 1 halves) = Done (ep, outs') /\ all_ok outs' /\
  position_entry_price (ex_pos ep) = 3 /\ position_entry_price (ex_pos ew) = 5 /\ wallet_of ep = 998 /\ wallet_of ew = 997.
Proof. exact in_halves. Qed.
(** A long of 5 closed as 1, 1 and 3. *)
Example C90_reducing_case : exists e outs ep outs', history (L true) won_start e outs /\ valid_config (L true) /\ same_side Sell (ex_pos e) = false /\
  run (L true) e (slices Sell 1 [d 1; d 1; d 3]) = Done (ep, outs') /\ all_ok outs' /\ ex_pos ep = Neutral.
Proof. exact reduced. Qed.
