(** What the text of an error is about. *)
From Verif Require Import Base Types Exchange Messages.

(** The error without the id of an unknown order, and the two prices of an order that would have been executed at once. *)
Definition gist (p away : Z) (e : any_error) : any_error * option (Z * Z) :=
  match e with
  | ACall (EOrderIdNotFound _) => (ACall (EOrderIdNotFound 0), None)
  | ACall (EOrder GoodTillCrossingRejectedOrder) => (e, Some (p, away))
  | _ => (e, None)
  end.
