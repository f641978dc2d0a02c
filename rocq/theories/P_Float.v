(** Property C76: decimals from floating point numbers. *)
From Coq Require Import QArith Qabs Qpower.
From Verif Require Import Base Width Helpers Float SpecDouble FloatProof FloatCor.
Open Scope Q_scope.

(** C76: the floating point number nearest to a decimal is converted back to that decimal, up to 2^50 units ... *)
Theorem C76_round_trip : forall m w D x z, (D <= 22)%nat -> (Z.abs z <= 2 ^ 50)%Z -> fits w z = true ->
  round64 (decimal D z) = Fin x -> decimal_from_f64 m w D (Fin x) = Ok z.
Proof. exact decimal_parsed. Qed.
Print Assumptions C76_round_trip.
(** ... and so is every number within a relative distance of 2^-52. *)
Theorem C76_close : forall m w D x z, (D <= 22)%nat -> (Z.abs z <= 2 ^ 50)%Z -> fits w z = true ->
  Qabs (x - decimal D z) <= Qabs (decimal D z) * 2 ^ (-52) -> decimal_from_f64 m w D (Fin x) = Ok z.
Proof. exact decimal_back. Qed.
Print Assumptions C76_close.
(** C76: in general the result is the nearest decimal up to the rounding of the product. *)
Theorem C76_nearest : forall m w D x, (D <= 22)%nat -> Qabs (units D x) <= 2 ^ 62 ->
  exists z, Qabs (inject_Z z - units D x) <= (1 # 2) + Qabs (units D x) * 2 ^ (-53) + tiny /\
    decimal_from_f64 m w D (Fin x) = if fits w z then Ok z else Err IntegerConversion.
Proof. exact decimal_near. Qed.
Print Assumptions C76_nearest.
(** C76: with integers of at most 50 bits, numbers in range are converted and others refused. *)
Theorem C76_in_range : forall m w D x, (D <= 22)%nat -> (1 <= w <= 50)%Z -> Qabs (units D x) <= 2 ^ (w - 1) - 2 ->
  exists z, decimal_from_f64 m w D (Fin x) = Ok z /\ Qabs (inject_Z z - units D x) <= (1 # 2) + Qabs (units D x) * 2 ^ (-53) + tiny.
Proof. exact decimal_fits. Qed.
Print Assumptions C76_in_range.
Theorem C76_out_of_range : forall m w D x, (D <= 22)%nat -> (1 <= w <= 50)%Z -> 2 ^ (w - 1) + 2 <= Qabs (units D x) ->
  decimal_from_f64 m w D (Fin x) = Err IntegerConversion.
Proof. exact decimal_too_large. Qed.
Print Assumptions C76_out_of_range.
(** C76: with 64 bits or more nothing is refused: what does not fit 64 bits becomes the largest or smallest 64 bit decimal ... *)
Theorem C76_errors : forall m w D val,
  match decimal_from_f64 m w D val with Ok _ => True | Err e => e = IntegerConversion /\ (w < 64)%Z end.
Proof. exact decimal_total. Qed.
Print Assumptions C76_errors.
Theorem C76_saturates : forall m w D x, (D <= 22)%nat -> (64 <= w)%Z ->
  (2 ^ 63 <= units D x -> decimal_from_f64 m w D (Fin x) = Ok (2 ^ 63 - 1)%Z) /\
  (units D x <= - (2 ^ 63) -> decimal_from_f64 m w D (Fin x) = Ok (- 2 ^ 63)%Z).
Proof. exact decimal_saturates. Qed.
Print Assumptions C76_saturates.
(** ... so 128 bit decimals that a double represents exactly are not converted exactly. *)
Theorem C76_wide_refuted : ~ (forall m w D x z, (D <= 22)%nat -> representable x -> units D x == inject_Z z -> fits w z = true ->
  decimal_from_f64 m w D (Fin x) = Ok z).
Proof. exact wide_refuted. Qed.
Print Assumptions C76_wide_refuted.
(** C76: not a number becomes zero without an error, and an infinity the largest or smallest 64 bit decimal. *)
Theorem C76_nan : forall m w D, (1 <= w)%Z -> decimal_from_f64 m w D NaN = Ok 0%Z.
Proof. exact decimal_nan. Qed.
Print Assumptions C76_nan.
Theorem C76_infinite : forall m w D s, (D <= 22)%nat -> (1 <= w)%Z ->
  decimal_from_f64 m w D (Inf s) = if (w <? 64)%Z then Err IntegerConversion else Ok (if s then - 2 ^ 63 else 2 ^ 63 - 1)%Z.
Proof. exact decimal_inf. Qed.
Print Assumptions C76_infinite.
(** C76: the rounding of the model is that of double precision: it lands on a representable number, keeps those, is off by
    at most half a unit in the last place, and no representable number is nearer. *)
Theorem C76_rounding_lands : forall x y, round64 x = Fin y -> representable y.
Proof. exact round_lands. Qed.
Print Assumptions C76_rounding_lands.
Theorem C76_rounding_exact : forall x, representable x -> exists y, round64 x = Fin y /\ y == x.
Proof. exact round_exact. Qed.
Print Assumptions C76_rounding_exact.
Theorem C76_rounding_error : forall x y, round64 x = Fin y -> Qabs (y - x) <= Qabs x * 2 ^ (-53) + tiny.
Proof. exact round_error. Qed.
Print Assumptions C76_rounding_error.
Theorem C76_rounding_nearest : forall x y r, round64 x = Fin y -> representable r -> Qabs (y - x) <= Qabs (r - x).
Proof. exact round_best. Qed.
Print Assumptions C76_rounding_nearest.

(** 0.1 as a double; 123.4567; the double above one half; a tie of the rounding to even; an integer that is too large; overflow. *)
Example C76_case :
  match round64 (1 # 10) with Fin x => x == 3602879701896397 # 36028797018963968 | _ => False end /\
  decimal_from_f64 Refuse 64 4 (round64 (decimal 4 1234567)) = Ok 1234567%Z /\
  decimal_from_f64 Refuse 32 4 (round64 (decimal 4 (-1234567))) = Ok (-1234567)%Z /\
  decimal_from_f64 Refuse 64 0 (Fin (1 # 2)) = Ok 1%Z /\ decimal_from_f64 Refuse 64 0 (Fin (- (1 # 2))) = Ok (-1)%Z /\
  match round64 (inject_Z (2 ^ 53 + 1)) with Fin x => x == inject_Z (2 ^ 53) | _ => False end /\
  match round64 (inject_Z (2 ^ 53 + 3)) with Fin x => x == inject_Z (2 ^ 53 + 4) | _ => False end /\
  decimal_from_f64 Refuse 32 4 (round64 (1000000 # 1)) = Err IntegerConversion /\
  round64 (inject_Z (2 ^ 1024)) = Inf false /\ round64 (inject_Z (2 ^ 1024 - 2 ^ 970)) = Inf false /\
  match round64 (inject_Z (2 ^ 1024 - 2 ^ 970 - 1)) with Fin x => x == inject_Z (2 ^ 1024 - 2 ^ 971) | _ => False end /\
  match round64 (2 ^ (-1075) * (3 # 2)) with Fin x => x == 2 ^ (-1074) | _ => False end /\
  match round64 (2 ^ (-1075)) with Fin x => x == 0 | _ => False end.
Proof. vm_compute. repeat split. Qed.
