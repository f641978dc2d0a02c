(** Property C64: small inputs never overflow. *)
From Verif Require Import Base Types Accounting Exchange Spec SpecConfig SpecBound Scenario ScenarioPanic Width Fixed SpecFixed ScenarioFixed
  ScenarioBound BoundFacts.

(** C64: let all prices be at most [P] and the quantities ordered by all calls together at most [V].  If starting capital, [V]
    and the number of limit orders satisfy [affordable], no operation of any call overflows [w] bit integers, whatever
    the calls are: the exchange over machine integers behaves like the one over unbounded integers. *)
Theorem C64_no_overflow : forall w c P V T ops,
  valid_config c -> config_in c P V T (2 ^ (w - 1)) -> volume ops <= V ->
  (forall o, In o ops -> call_in P T (2 ^ (w - 1)) o) -> affordable c P V (2 ^ (w - 1)) ops ->
  10001 * (Z.of_nat (length ops) + 1) < 2 ^ 64 ->
  w_play w c ops = Fine (u_play c ops).
Proof. exact bounded_calls. Qed.
Print Assumptions C64_no_overflow.
(** C64: in numbers, for [i64] with five decimals. *)
Theorem C64_everyday_i64 : forall c ops,
  valid_config c -> everyday_config c -> everyday_calls ops -> w_play 64 c ops = Fine (u_play c ops).
Proof. exact everyday_fits. Qed.
Print Assumptions C64_everyday_i64.

(** The history of C62, which needs 26 bits, satisfies the conditions of C64 from 31 bits on. *)
Example C64_nonvacuous :
  valid_config (demo_cfg Linear true) /\ config_in (demo_cfg Linear true) (d 161) (d 15) 6 (2 ^ (31 - 1)) /\ volume demo_ops <= d 15 /\
  (forall o, In o demo_ops -> call_in (d 161) 6 (2 ^ (31 - 1)) o) /\ affordable (demo_cfg Linear true) (d 161) (d 15) (2 ^ (31 - 1)) demo_ops /\
  ~ affordable (demo_cfg Linear true) (d 161) (d 15) (2 ^ (30 - 1)) demo_ops /\
  10001 * (Z.of_nat (length demo_ops) + 1) < 2 ^ 64 /\ returns (w_play 31 (demo_cfg Linear true) demo_ops) = true.
Proof. exact demo_bounded. Qed.
(** An everyday history: a market order, two limit orders, one filled and one cancelled. *)
Example C64_everyday_nonvacuous :
  valid_config btc_cfg /\ everyday_config btc_cfg /\ everyday_calls btc_ops /\ returns (w_play 64 btc_cfg btc_ops) = true.
Proof. exact btc_bounded. Qed.
