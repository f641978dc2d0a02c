(** Decimals from floating point numbers. *)
From Coq Require Import QArith Qround Qabs Qpower.
From Verif Require Import Base Width Helpers.
Open Scope Q_scope.

(** Floating point numbers of IEEE 754.  The two zeros are one number, the positive one. *)
Inductive float := NaN | Inf (negative : bool) | Fin (x : Q).
(** A format: bits of the mantissa, exponent of the smallest positive number, exponent of the first number that is too large. *)
Record format := { f_prec : Z; f_emin : Z; f_emax : Z }.
Definition b64 : format := {| f_prec := 53; f_emin := -1074; f_emax := 1024 |}.
Definition b32 : format := {| f_prec := 24; f_emin := -149; f_emax := 128 |}.

(** The integer nearest to [q], the even one of two. *)
Definition nearest_even (q : Q) : Z :=
  let n := Qfloor q in
  match Qcompare (q - inject_Z n) (1 # 2) with
  | Lt => n
  | Gt => (n + 1)%Z
  | Eq => if Z.even n then n else (n + 1)%Z
  end.
(** The [k] with [2^k <= x < 2^(k+1)]. *)
Definition binade (x : Q) : Z :=
  let k := (Z.log2 (Qnum x) - Z.log2 (Z.pos (Qden x)))%Z in
  if Qle_bool (2 ^ k) x then k else (k - 1)%Z.
(** Rounding to nearest, with gradual underflow and overflow to infinity. *)
Definition negative (x : Q) : bool := negb (Qle_bool 0 x).
Definition round_to (f : format) (x : Q) : float :=
  if Qeq_bool x 0 then Fin 0
  else
    let e := Z.max (binade (Qabs x) - (f_prec f - 1)) (f_emin f) in
    let y := inject_Z (nearest_even (x / 2 ^ e)) * 2 ^ e in
    if Qle_bool (2 ^ f_emax f) (Qabs y) then Inf (negative x) else Fin y.
Definition round64 : Q -> float := round_to b64.
Definition fmul (f : format) (a b : float) : float :=
  match a, b with
  | NaN, _ | _, NaN => NaN
  | Inf s, Inf t => Inf (xorb s t)
  | Inf s, Fin x | Fin x, Inf s => if Qeq_bool x 0 then NaN else Inf (xorb s (negative x))
  | Fin x, Fin y => round_to f (x * y)
  end.
Definition mul64 : float -> float -> float := fmul b64.
(** [f64::round]: half away from zero. *)
Definition half_away (x : Q) : Z := (Z.sgn (Qnum x) * Qfloor (Qabs x + (1 # 2)))%Z.
Definition round (a : float) : float := match a with Fin x => Fin (inject_Z (half_away x)) | _ => a end.
(** [as i64]: saturates, and turns [NaN] into zero. *)
Definition clamp (z : Z) : Z := Z.max (- 2 ^ 63) (Z.min (2 ^ 63 - 1) z).
Definition as_i64 (a : float) : Z :=
  match a with
  | NaN => 0
  | Inf true => - 2 ^ 63
  | Inf false => 2 ^ 63 - 1
  | Fin x => clamp (Z.quot (Qnum x) (Z.pos (Qden x)))
  end%Z.

(** src/types/errors/main.rs:44-48 *)
Inductive conversion_error := IntegerConversion | UnableToCreateDecimal.

(** src/utils.rs:57-66, [decimal_from_f64], for [D] decimals and integers of [w] bits.  [10_f64.powi(D)] is taken to be the
    number nearest to [10^D]; for [D <= 22], more than an [i64] has decimals, that is [10^D] itself in whatever order the
    factors are multiplied.  [m] is what const_decimal does with values that need more decimals, see Helpers.v. *)
Definition decimal_from_f64 (m : inexact) (w : Z) (D : nat) (val : float) : result conversion_error Z :=
  let scaling_factor := round64 (inject_Z (10 ^ Z.of_nat D)) in
  let scaled := round (mul64 val scaling_factor) in
  let i := as_i64 scaled in
  if fits w i then
    match try_from_scaled m (10 ^ Z.of_nat D) i D with
    | Some v => Ok v
    | None => Err UnableToCreateDecimal
    end
  else Err IntegerConversion.
