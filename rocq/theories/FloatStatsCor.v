(** The properties of C77. *)
From Coq Require Import QArith Qround Qabs Qpower Lqa Lia List Permutation.
From Verif Require Import Base Types Tracker Stats Exchange Spec SpecBook SpecTrack SpecFate FateProof Width Helpers Float SpecDouble FloatBase FloatStats SpecSample
  FloatStatsProof FloatStatsRatio FloatStatsMean FloatStatsGrid FloatStatsRoot FloatStatsMirror.
Import ListNotations.
Open Scope Q_scope.

Lemma counts c ops e outs : (0 <= c_max c <= 10000)%Z -> no_check ops -> history c ops e outs ->
  fill_ratio (ex_trk e) = ratio (Z.of_nat (length (completed ops outs))) (tally limit_submitted (calls ops outs)) /\
  cancellation_ratio (ex_trk e) = ratio (Z.of_nat (length (withdrawn ops outs))) (tally limit_submitted (calls ops outs)) /\
  (Z.of_nat (length (completed ops outs)) <= tally limit_submitted (calls ops outs))%Z /\
  (Z.of_nat (length (withdrawn ops outs)) <= tally limit_submitted (calls ops outs))%Z.
Proof.
  intros Hm Hc H. destruct (ratios c ops e outs Hm Hc H) as (A & B & C). unfold limit_order_fill_ratio, limit_order_cancellation_ratio in A, B.
  injection A as A1 A2. injection B as B1 _. unfold fill_ratio, cancellation_ratio, ratio. rewrite A1, A2, B1. repeat split; lia.
Qed.
Lemma ratios_range c ops e outs : (0 <= c_max c <= 10000)%Z -> no_check ops -> history c ops e outs ->
  let n := tally limit_submitted (calls ops outs) in
  (n < 2 ^ 64)%Z ->
  (n = 0%Z -> fill_ratio (ex_trk e) = NaN /\ cancellation_ratio (ex_trk e) = NaN) /\
  (n <> 0%Z -> exists r s, fill_ratio (ex_trk e) = Fin r /\ cancellation_ratio (ex_trk e) = Fin s /\
     0 <= r /\ r <= 1 /\ Qabs (r - inject_Z (Z.of_nat (length (completed ops outs))) / inject_Z n) <= 2 ^ (-22) /\ (r == 0 <-> completed ops outs = []) /\
     0 <= s /\ s <= 1 /\ Qabs (s - inject_Z (Z.of_nat (length (withdrawn ops outs))) / inject_Z n) <= 2 ^ (-22) /\ (s == 0 <-> withdrawn ops outs = [])).
Proof.
  intros Hm Hc H n Hn. destruct (counts c ops e outs Hm Hc H) as (A & B & C & D). fold n in A, B, C, D. rewrite A, B. split; intros N.
  - rewrite N in *. rewrite !ratio_none by lia. split; reflexivity.
  - destruct (ratio_range (Z.of_nat (length (completed ops outs))) n) as (r & Hr & R0 & R1 & Rz); [lia | lia|].
    destruct (ratio_range (Z.of_nat (length (withdrawn ops outs))) n) as (s & Hs & S0 & S1 & Sz); [lia | lia|].
    exists r, s. split; [exact Hr|]. split; [exact Hs|]. split; [exact R0|]. split; [exact R1|]. split; [apply ratio_error; [lia | lia | exact Hr]|].
    split; [rewrite Rz; destruct (completed ops outs); cbn [length]; split; (reflexivity || discriminate || lia)|].
    split; [exact S0|]. split; [exact S1|]. split; [apply ratio_error; [lia | lia | exact Hs]|].
    rewrite Sz; destruct (withdrawn ops outs); cbn [length]; split; (reflexivity || discriminate || lia).
Qed.
Lemma ratios_exact c ops e outs : (0 <= c_max c <= 10000)%Z -> no_check ops -> history c ops e outs ->
  let n := tally limit_submitted (calls ops outs) in
  (0 < n <= 2 ^ 24)%Z ->
  fill_ratio (ex_trk e) = round_to b32 (inject_Z (Z.of_nat (length (completed ops outs))) / inject_Z n) /\
  cancellation_ratio (ex_trk e) = round_to b32 (inject_Z (Z.of_nat (length (withdrawn ops outs))) / inject_Z n) /\
  (forall r, fill_ratio (ex_trk e) = Fin r -> (r == 1 <-> Z.of_nat (length (completed ops outs)) = n)) /\
  (forall s, cancellation_ratio (ex_trk e) = Fin s -> (s == 1 <-> Z.of_nat (length (withdrawn ops outs)) = n)).
Proof.
  intros Hm Hc H n Hn. destruct (counts c ops e outs Hm Hc H) as (A & B & C & D). fold n in A, B, C, D. rewrite A, B.
  split; [apply ratio_exact; lia|]. split; [apply ratio_exact; lia|]. split; intros r; apply ratio_one; lia.
Qed.
Lemma one_wrong : ~ (forall t r, (0 <= tk_fully_filled t <= tk_sub_limit t)%Z -> (tk_sub_limit t < 2 ^ 64)%Z ->
  fill_ratio t = Fin r -> r == 1 -> tk_fully_filled t = tk_sub_limit t).
Proof.
  intros H. specialize (H {| tk_start := 1; tk_sub_limit := 2 ^ 24 + 1; tk_cancelled := 0; tk_fill_events := 2 ^ 24; tk_fully_filled := 2 ^ 24; tk_sub_market := 0;
    tk_filled_market := 0; tk_buy_volume := 0; tk_sell_volume := 0; tk_price_first := 1; tk_price_last := 1; tk_ts_first := 1; tk_ts_last := 1;
    tk_last_balance_sum := 1; tk_samples := nil |}%Z (8388608 # 8388608)). cbn [tk_fully_filled tk_sub_limit] in H.
  assert (G : (2 ^ 24 = 2 ^ 24 + 1)%Z); [|lia]. apply H; [lia | lia | vm_compute; reflexivity | reflexivity].
Qed.

(** ** What floating point breaks *)
Definition tenth : Q := 3602879701896397 # 36028797018963968.
Definition fifth : Q := 3602879701896397 # 18014398509481984.
Definition three_tenths : Q := 5404319552844595 # 18014398509481984.
Definition seven_tenths : Q := 3152519739159347 # 4503599627370496.
Lemma are_double n d k : (Z.abs n < 2 ^ 53)%Z -> (0 <= k <= 1074)%Z -> Z.pos d = (2 ^ k)%Z -> representable (n # d).
Proof.
  intros Hn Hk Hd. exists n, (- k)%Z. split; [exact Hn|]. split; [lia|]. rewrite Qpower_opp, two_int, <- Hd by lia.
  unfold Qeq, Qmult, Qinv. cbn [Qnum Qden inject_Z]. lia.
Qed.
Lemma tenth_nearest : exists x, round64 (1 # 10) = Fin x /\ x == tenth.
Proof. eexists. split; [vm_compute; reflexivity | reflexivity]. Qed.
Lemma tenth_double : representable tenth.
Proof. apply (are_double _ _ 55); [lia | lia | reflexivity]. Qed.
Lemma repeat_in {A} (x y : A) n : In y (repeat x n) -> y = x.
Proof. intros H. symmetry. symmetry. exact (repeat_spec n x y H). Qed.

(** Ten times one tenth. *)
Lemma mean_outside : ~ (forall l lo y, doubles l -> l <> [] -> (forall x, In x l -> lo <= x) -> mean (map Fin l) = Fin y -> lo <= y).
Proof.
  intros H. set (y := match mean (map Fin (repeat tenth 10)) with Fin y => y | _ => 0 end).
  assert (E : mean (map Fin (repeat tenth 10)) = Fin y) by (vm_compute; reflexivity).
  specialize (H (repeat tenth 10) tenth y). assert (G : tenth <= y); [|vm_compute in G; apply G; reflexivity]. apply H; [| discriminate | | exact E].
  - intros x Hx. apply repeat_in in Hx as ->. exact tenth_double.
  - intros x Hx. apply repeat_in in Hx as ->. apply Qle_refl.
Qed.
Lemma spread_of_constant : ~ (forall l v, doubles l -> constant l -> variance (map Fin l) = Fin v -> v == 0).
Proof.
  intros H. set (v := match variance (map Fin (repeat tenth 10)) with Fin y => y | _ => 0 end).
  assert (E : variance (map Fin (repeat tenth 10)) = Fin v) by (vm_compute; reflexivity).
  assert (G : v == 0); [|vm_compute in G; discriminate]. apply (H (repeat tenth 10)); [| | exact E].
  - intros x Hx. apply repeat_in in Hx as ->. exact tenth_double.
  - intros x x' Hx Hx'. apply repeat_in in Hx as ->. apply repeat_in in Hx' as ->. reflexivity.
Qed.
Lemma kurtosis_of_constant : ~ (forall l, doubles l -> constant l -> excess_kurtosis (map Fin l) = NaN).
Proof.
  intros H. assert (G : excess_kurtosis (map Fin (repeat tenth 10)) = NaN); [|vm_compute in G; discriminate]. apply H.
  - intros x Hx. apply repeat_in in Hx as ->. exact tenth_double.
  - intros x x' Hx Hx'. apply repeat_in in Hx as ->. apply repeat_in in Hx' as ->. reflexivity.
Qed.
Lemma kurtosis_below : ~ (forall l, doubles l -> at_least (- (2)) (excess_kurtosis (map Fin l))).
Proof.
  intros H. specialize (H [0; 0; 0; seven_tenths; seven_tenths; seven_tenths]).
  assert (D : doubles [0; 0; 0; seven_tenths; seven_tenths; seven_tenths]).
  { intros x Hx. assert (O : x = 0 \/ x = seven_tenths) by (cbn [In] in Hx; intuition).
    destruct O as [-> | ->]; [apply (are_double 0 1 0); [lia | lia | reflexivity] | apply (are_double _ _ 52); [lia | lia | reflexivity]]. }
  specialize (H D). vm_compute in H. apply H. reflexivity.
Qed.
Lemma order_matters : ~ (forall l l', doubles l -> Permutation l l' -> same (mean (map Fin l)) (mean (map Fin l'))).
Proof.
  intros H. specialize (H [tenth; fifth; three_tenths] [three_tenths; fifth; tenth]). assert (G : same (mean (map Fin [tenth; fifth; three_tenths])) (mean (map Fin [three_tenths; fifth; tenth]))).
  - apply H.
    + intros x Hx. cbn [In] in Hx. destruct Hx as [<- | [<- | [<- | []]]]; [apply (are_double _ _ 55) | apply (are_double _ _ 54) | apply (are_double _ _ 54)]; (lia || reflexivity).
    + apply (Permutation_rev [tenth; fifth; three_tenths]).
  - vm_compute in G. discriminate.
Qed.
Lemma undefined_shape : ~ (forall l v, doubles l -> variance (map Fin l) = Fin v -> excess_kurtosis (map Fin l) = NaN -> v == 0).
Proof.
  intros H. set (tiny_one := 1 # (2 ^ 300)). set (v := match variance (map Fin [0; tiny_one]) with Fin y => y | _ => 0 end).
  assert (E : variance (map Fin [0; tiny_one]) = Fin v) by (vm_compute; reflexivity).
  assert (G : v == 0); [|vm_compute in G; discriminate]. apply (H [0; tiny_one]); [| exact E | vm_compute; reflexivity].
  intros x Hx. cbn [In] in Hx. destruct Hx as [<- | [<- | []]]; [apply (are_double 0 1 0) | apply (are_double _ _ 300)]; (lia || reflexivity).
Qed.
(** The sample of the test in the repository. *)
Definition scipy : list float := map (fun n => Fin (inject_Z n)) [2; 8; 0; 4; 1; 9; 9; 0]%Z.
