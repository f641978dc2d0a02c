(** Market data that goes further. *)
From Coq Require Import Permutation.
From Verif Require Import Base Types MarketUpdate Exchange Spec.

Definition real_trades (l : list trade) : Prop := forall t, In t l -> 0 < tr_qty t.
Definition within (k : candle) (t : trade) : Prop := cd_low k <= tr_price t <= cd_high k.
(** [ru'] goes at least as far as [ru]: more is traded, at prices further away, or the candle covers the trades. *)
Definition broader (ru ru' : raw_update) : Prop :=
  match ru, ru' with
  | RBba _, _ => True
  | RTrade t, RTrade t' =>
      tr_side t' = tr_side t /\ tr_qty t <= tr_qty t' /\ match tr_side t with Sell => tr_price t' <= tr_price t | Buy => tr_price t <= tr_price t' end
  | RTrade t, RSmart l' _ _ => real_trades l' /\ In t l'
  | RSmart l _ _, RSmart l' _ _ => real_trades l' /\ exists r, Permutation l' (l ++ r)
  | RTrade t, RCandle k => within k t
  | RSmart l _ _, RCandle k => forall t, In t l -> within k t
  | RCandle k, RCandle k' => cd_low k' <= cd_low k /\ cd_high k <= cd_high k'
  | _, _ => False
  end.
