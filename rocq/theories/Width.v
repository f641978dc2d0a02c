(** Arithmetic on machine integers. *)
From Verif Require Import Base.

(** A computation on machine integers either meets an operation whose result does not fit, or behaves like the
    unbounded computation.  On the first overflow [+], [-], [-x] and [abs] panic in debug builds and wrap around in
    release builds, [*], [/] and [%] of const_decimal panic in both; what happens afterwards is not modelled. *)
Inductive checked (A : Type) :=
| Fine (o : outcome A)
| Overflow.
Arguments Fine {A} o.
Arguments Overflow {A}.

Definition cbind {A B} (m : checked A) (k : A -> checked B) : checked B :=
  match m with
  | Fine (Done a) => k a
  | Fine (Panic p) => Fine (Panic p)
  | Overflow => Overflow
  end.

Notation "x <~ m ;; k" := (cbind m (fun x => k))
  (at level 61, m at next level, right associativity).
Notation "' pat <~ m ;; k" := (cbind m (fun x => match x with pat => k end))
  (at level 61, pat pattern, m at next level, right associativity).

Definition ret {A} (a : A) : checked A := Fine (Done a).

(** [debug_assert!] whose condition may overflow. *)
Definition cdebug_assert_m (dbg : bool) (b : checked bool) (p : panic_site) : checked unit :=
  if dbg then v <~ b ;; Fine (assert v p) else ret tt.

(** [w] is the number of bits of the signed integer type [I]: [Mon] is implemented for [i32], [i64] and [i128]
    (src/types/smol_currency/mod.rs:24-26).  Timestamps are [i64] (src/types/timestamp_ns.rs:11); order ids, the step
    counter and the counters of the tracker are [u64] ([usize] on a 64 bit machine). *)
Definition fits (w z : Z) : bool := (- 2 ^ (w - 1) <=? z) && (z <? 2 ^ (w - 1)).
Definition fits_unsigned (w z : Z) : bool := (0 <=? z) && (z <? 2 ^ w).

Definition chk (w z : Z) : checked Z := if fits w z then ret z else Overflow.
Definition count (z : Z) : checked Z := if fits_unsigned 64 z then ret z else Overflow.

(** The operations of [Decimal]: the result of [+], [-], unary [-] and [abs] must fit; [*] and [/] compute their
    intermediate product in twice the width, the result must fit; [%] overflows for the smallest integer and -1. *)
Definition cadd (w a b : Z) : checked Z := chk w (a + b).
Definition csub (w a b : Z) : checked Z := chk w (a - b).
Definition cneg (w a : Z) : checked Z := chk w (- a).
Definition cabs (w a : Z) : checked Z := chk w (Z.abs a).
Definition cmul (w s a b : Z) : checked Z := chk w (dmul s a b).
Definition cdiv (w s a b : Z) : checked Z := v <~ Fine (ddiv s a b) ;; chk w v.
Definition crem (w a b : Z) : checked Z :=
  if (b =? - 1) && negb (fits w (- a)) then Overflow else Fine (drem a b).
