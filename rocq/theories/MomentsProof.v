(** Proofs about statistical moments. *)
From Coq Require Import QArith Lqa List Permutation Lia Setoid.
From Verif Require Import Moments SpecMoments.
Import ListNotations.
Open Scope Q_scope.

Lemma qsum_cons a l : qsum (a :: l) = a + qsum l.
Proof. reflexivity. Qed.
Lemma qsum_ext (f g : Q -> Q) l : (forall x, f x == g x) -> qsum (map f l) == qsum (map g l).
Proof. intros H. induction l as [|a l IH]; cbn [map]; [reflexivity|]. rewrite !qsum_cons, IH, (H a). reflexivity. Qed.
Lemma qsum_add (f g : Q -> Q) l : qsum (map (fun x => f x + g x) l) == qsum (map f l) + qsum (map g l).
Proof. induction l as [|a l IH]; cbn [map]; [reflexivity|]. rewrite !qsum_cons, IH. ring. Qed.
Lemma qsum_mul (c : Q) (f : Q -> Q) l : qsum (map (fun x => c * f x) l) == c * qsum (map f l).
Proof. induction l as [|a l IH]; cbn [map]; [change (0 == c * 0); ring|]. rewrite !qsum_cons, IH. ring. Qed.
Lemma qlen_cons a l : qlen (a :: l) == 1 + qlen l.
Proof. unfold qlen. cbn [length]. rewrite Nat2Z.inj_succ. unfold Z.succ. rewrite inject_Z_plus. ring. Qed.
Lemma qsum_const (c : Q) (l : list Q) : qsum (map (fun _ => c) l) == c * qlen l.
Proof. induction l as [|a l IH]; cbn [map]; [change (0 == c * 0); ring|]. rewrite qlen_cons, qsum_cons, IH. ring. Qed.
Lemma qsum_id l : qsum (map (fun x => x) l) == qsum l.
Proof. rewrite map_id. reflexivity. Qed.
Lemma qsum_nonneg (f : Q -> Q) l : (forall x, 0 <= f x) -> 0 <= qsum (map f l).
Proof. intros H. induction l as [|a l IH]; cbn [map]; [cbn; lra|]. pose proof (H a). rewrite qsum_cons. lra. Qed.
Lemma qsum_zero (f : Q -> Q) l : (forall x, 0 <= f x) -> qsum (map f l) == 0 -> forall x, In x l -> f x == 0.
Proof.
  intros H. induction l as [|a l IH]; cbn [map]; intros S x Hx; [destruct Hx|]. rewrite qsum_cons in S.
  pose proof (H a). pose proof (qsum_nonneg f l H). destruct Hx as [<-|Hx].
  - lra.
  - apply IH; [lra | exact Hx].
Qed.
Lemma qlen_pos l : l <> [] -> 0 < qlen l.
Proof.
  destruct l as [|a l]; [congruence|]. intros _. rewrite qlen_cons.
  assert (0 <= qlen l) by (unfold qlen; change 0 with (inject_Z 0); rewrite <- Zle_Qle; lia). lra.
Qed.

(** Average of a function over a sample. *)
Definition avg (l : list Q) (f : Q -> Q) : Q := qsum (map f l) / qlen l.
Lemma avg_ext l f g : (forall x, f x == g x) -> avg l f == avg l g.
Proof. intros H. unfold avg. rewrite (qsum_ext f g l H). reflexivity. Qed.
Lemma avg_add l f g : avg l (fun x => f x + g x) == avg l f + avg l g.
Proof. unfold avg. rewrite qsum_add. unfold Qdiv. ring. Qed.
Lemma avg_mul l c f : avg l (fun x => c * f x) == c * avg l f.
Proof. unfold avg. rewrite qsum_mul. unfold Qdiv. ring. Qed.
Lemma avg_const l c : l <> [] -> avg l (fun _ => c) == c.
Proof. intros N. pose proof (qlen_pos l N). unfold avg. rewrite qsum_const. field. lra. Qed.
Lemma avg_nonneg l f : l <> [] -> (forall x, 0 <= f x) -> 0 <= avg l f.
Proof. intros N H. pose proof (qlen_pos l N). unfold avg. apply Qle_shift_div_l; [assumption|]. pose proof (qsum_nonneg f l H). lra. Qed.
Lemma avg_zero l f : l <> [] -> (forall x, 0 <= f x) -> avg l f == 0 -> forall x, In x l -> f x == 0.
Proof.
  intros N H E. apply qsum_zero; [exact H|]. pose proof (qlen_pos l N). unfold avg in E.
  assert (X : qsum (map f l) == qsum (map f l) / qlen l * qlen l) by (field; lra). rewrite X, E. ring.
Qed.

Lemma central_avg l m k : central l m k = avg l (fun v => powi (v - m) k).
Proof. reflexivity. Qed.
Definition mean (l : list Q) : Q := qsum l / qlen l.
Lemma mean_avg l : mean l == avg l (fun x => x).
Proof. unfold mean, avg. rewrite qsum_id. reflexivity. Qed.
Lemma sq_nonneg (x : Q) : 0 <= x * x.
Proof. nra. Qed.

Lemma centred l : l <> [] -> avg l (fun v => v - mean l) == 0.
Proof.
  intros N. assert (E : avg l (fun v => v - mean l) == avg l (fun v => v + (-1) * mean l)) by (apply avg_ext; intros; ring).
  rewrite E, avg_add, (avg_const l _ N), <- mean_avg. ring.
Qed.

Lemma powi2 x : powi x 2 == x * x. Proof. cbn. ring. Qed.
Lemma powi3 x : powi x 3 == x * x * x. Proof. cbn. ring. Qed.
Lemma powi4 x : powi x 4 == x * x * (x * x). Proof. cbn. ring. Qed.

Lemma variance_nonneg l m : l <> [] -> 0 <= central l m 2.
Proof. intros N. rewrite central_avg. apply avg_nonneg; [exact N|]. intros x. rewrite powi2. apply sq_nonneg. Qed.

Lemma variance_zero l : l <> [] -> (central l (mean l) 2 == 0 <-> forall x, In x l -> x == mean l).
Proof.
  intros N. rewrite central_avg. split.
  - intros E x Hx. assert (Z : powi (x - mean l) 2 == 0).
    { apply (avg_zero l (fun v => powi (v - mean l) 2) N); [|exact E|exact Hx]. intros y. rewrite powi2. apply sq_nonneg. }
    rewrite powi2 in Z. assert (x - mean l == 0) by nra. lra.
  - intros H. unfold avg. assert (S : qsum (map (fun v => powi (v - mean l) 2) l) == 0).
    { set (m := mean l) in *. clearbody m. clear N. induction l as [|a l IH]; [reflexivity|]. cbn [map]. rewrite qsum_cons.
      rewrite IH by (intros; apply H; right; assumption). rewrite powi2, (H a) by (left; reflexivity). ring. }
    rewrite S. unfold Qdiv. ring.
Qed.

Lemma avg_poly l f4 f3 f2 f1 A B C K : l <> [] ->
  avg l (fun x => f4 x + ((A * f2 x + B * f3 x) + (C * f1 x + K))) ==
  avg l f4 + ((A * avg l f2 + B * avg l f3) + (C * avg l f1 + K)).
Proof.
  intros N. rewrite (avg_add l f4 (fun x => (A * f2 x + B * f3 x) + (C * f1 x + K))).
  rewrite (avg_add l (fun x => A * f2 x + B * f3 x) (fun x => C * f1 x + K)).
  rewrite (avg_add l (fun x => A * f2 x) (fun x => B * f3 x)), (avg_add l (fun x => C * f1 x) (fun _ => K)).
  rewrite !avg_mul, (avg_const l _ N). reflexivity.
Qed.

(** Pearson's inequality: the average of the square of [d^2 - (m3 / v) d - v]. *)
Lemma pearson l : l <> [] -> let m := mean l in let v := central l m 2 in let m3 := central l m 3 in let m4 := central l m 4 in
  0 < v -> m3 * m3 + v * v * v <= v * m4.
Proof.
  intros N m v m3 m4 V. set (t := m3 / v).
  assert (P : 0 <= avg l (fun x => (powi (x - m) 2 - t * (x - m) - v) * (powi (x - m) 2 - t * (x - m) - v)))
    by (apply avg_nonneg; [exact N | intros; apply sq_nonneg]).
  assert (E : avg l (fun x => (powi (x - m) 2 - t * (x - m) - v) * (powi (x - m) 2 - t * (x - m) - v))
    == m4 + (((t * t - (1 + 1) * v) * v + (- (1 + 1) * t) * m3) + (((1 + 1) * t * v) * 0 + v * v))).
  { rewrite (avg_ext l _ (fun x => powi (x - m) 4 + (((t * t - (1 + 1) * v) * powi (x - m) 2 + (- (1 + 1) * t) * powi (x - m) 3) +
                            ((1 + 1) * t * v * (x - m) + v * v)))) by (intros; cbn; ring).
    rewrite (avg_poly l (fun x => powi (x - m) 4) (fun x => powi (x - m) 3) (fun x => powi (x - m) 2) (fun x => x - m) _ _ _ _ N).
    pose proof (centred l N) as Z. fold m in Z. rewrite Z. reflexivity. }
  rewrite E in P. assert (T : t * v == m3) by (unfold t; field; lra).
  assert (Q : m3 * m3 == t * m3 * v) by (rewrite <- T at 1; ring). nra.
Qed.

Definition mo (l : list Q) : moments :=
  {| mo_mean := mean l; mo_variance := central l (mean l) 2;
     mo_skew := if Qeq_bool (central l (mean l) 2) 0 then None else Some (central l (mean l) 3, central l (mean l) 2);
     mo_excess_kurtosis := if Qeq_bool (central l (mean l) 2) 0 then None
                           else Some (central l (mean l) 4 / powi (central l (mean l) 2) 2 - 3) |}.
Lemma moments_some l m : statistical_moments l = Some m -> l <> [] /\ m = mo l.
Proof. destruct l; [discriminate|]. intros H. injection H as <-. split; [discriminate | reflexivity]. Qed.
Lemma moments_ne l : l <> [] -> statistical_moments l = Some (mo l).
Proof. destruct l; [congruence | reflexivity]. Qed.

Lemma defined l : statistical_moments l = None <-> l = [].
Proof. destruct l; split; (reflexivity || discriminate). Qed.

Lemma mean_between l m lo hi : statistical_moments l = Some m -> (forall x, In x l -> lo <= x <= hi) -> lo <= mo_mean m <= hi.
Proof.
  intros H B. apply moments_some in H as [N ->]. cbn [mo mo_mean]. pose proof (qlen_pos l N) as L. unfold mean.
  assert (S : lo * qlen l <= qsum l <= hi * qlen l).
  { clear N L. induction l as [|a l IH]; [change (lo * 0 <= 0 <= hi * 0); lra|]. rewrite qlen_cons, qsum_cons. destruct IH as [I1 I2]; [intros; apply B; right; assumption|].
    destruct (B a (or_introl eq_refl)). lra. }
  split; [apply Qle_shift_div_l | apply Qle_shift_div_r]; tauto.
Qed.

Lemma spread l m : statistical_moments l = Some m ->
  0 <= mo_variance m /\ (mo_variance m == 0 <-> forall x, In x l -> x == mo_mean m) /\
  (mo_skew m = None <-> mo_variance m == 0) /\ (mo_excess_kurtosis m = None <-> mo_variance m == 0).
Proof.
  intros H. apply moments_some in H as [N ->]. cbn [mo mo_mean mo_variance mo_skew mo_excess_kurtosis].
  split; [apply variance_nonneg; exact N|]. split; [apply variance_zero; exact N|].
  destruct (Qeq_bool (central l (mean l) 2) 0) eqn:E.
  - apply Qeq_bool_eq in E. tauto.
  - apply Qeq_bool_neq in E. split; split; (discriminate || tauto).
Qed.

Lemma shape l m a v k : statistical_moments l = Some m -> mo_skew m = Some (a, v) -> mo_excess_kurtosis m = Some k ->
  v == mo_variance m /\ 0 < v /\ a * a <= v * v * v * (k + 2) /\ - (2) <= k.
Proof.
  intros H. apply moments_some in H as [N ->]. cbn [mo mo_variance mo_skew mo_excess_kurtosis].
  destruct (Qeq_bool (central l (mean l) 2) 0) eqn:E; [discriminate|]. apply Qeq_bool_neq in E. intros A K.
  injection A as <- <-. injection K as <-. pose proof (variance_nonneg l (mean l) N) as V.
  assert (P : 0 < central l (mean l) 2) by (apply Qle_lt_or_eq in V as [V|V]; [exact V | exfalso; apply E; symmetry; exact V]).
  split; [reflexivity|]. split; [exact P|]. pose proof (pearson l N P) as I. cbv zeta in I.
  set (w := central l (mean l) 2) in *. set (m3 := central l (mean l) 3) in *. set (m4 := central l (mean l) 4) in *.
  assert (X : w * w * w * (m4 / powi w 2 - 3 + 2) == w * m4 - w * w * w) by (cbn [powi]; field; exact E).
  assert (J : m3 * m3 <= w * w * w * (m4 / powi w 2 - 3 + 2)) by (rewrite X; lra).
  split; [exact J|].
  cbn [powi] in J, X |- *. set (k := m4 / (w * (w * 1)) - 3) in *. clearbody k w m3 m4. assert (W : 0 < w * w * w) by (repeat apply Qmult_lt_0_compat; exact P). pose proof (sq_nonneg m3).
  destruct (Qlt_le_dec k (- (2))) as [C|C]; [exfalso; nra | exact C].
Qed.

Lemma powi_comp x y k : x == y -> powi x k == powi y k.
Proof. intros E. induction k as [|k IH]; cbn; [reflexivity|]. rewrite IH, E. reflexivity. Qed.
Lemma avg_map l f g : avg (map g l) f == avg l (fun x => f (g x)).
Proof. unfold avg, qlen. rewrite map_map, map_length. reflexivity. Qed.
Lemma mean_affine l k d : l <> [] -> mean (map (fun x => k * x + d) l) == k * mean l + d.
Proof. intros N. rewrite mean_avg, avg_map, avg_add, avg_mul, (avg_const l _ N), <- mean_avg. reflexivity. Qed.
Lemma central_affine l k d n : l <> [] ->
  central (map (fun x => k * x + d) l) (mean (map (fun x => k * x + d) l)) n == powi k n * central l (mean l) n.
Proof.
  intros N. rewrite !central_avg, avg_map, <- avg_mul. apply avg_ext. intros x.
  assert (E : k * x + d - mean (map (fun x => k * x + d) l) == k * (x - mean l)) by (rewrite mean_affine by exact N; ring).
  rewrite (powi_comp _ _ n E). induction n as [|n IH]; cbn [powi]; [ring|]. rewrite IH. ring.
Qed.

Lemma qeqb_comp x y : x == y -> Qeq_bool x 0 = Qeq_bool y 0.
Proof.
  intros E. destruct (Qeq_bool x 0) eqn:A, (Qeq_bool y 0) eqn:B; try reflexivity.
  - apply Qeq_bool_eq in A. apply Qeq_bool_neq in B. exfalso. apply B. rewrite <- E. exact A.
  - apply Qeq_bool_eq in B. apply Qeq_bool_neq in A. exfalso. apply A. rewrite E. exact B.
Qed.

Lemma affine l k d m : ~ k == 0 -> statistical_moments l = Some m ->
  exists m', statistical_moments (map (fun x => k * x + d) l) = Some m' /\ same_moments m' (scaled_by k d m).
Proof.
  intros Hk H. apply moments_some in H as [N ->].
  assert (N' : map (fun x => k * x + d) l <> []) by (destruct l; [congruence|discriminate]).
  exists (mo (map (fun x => k * x + d) l)). split; [apply moments_ne; exact N'|].
  unfold same_moments. cbn [mo scaled_by mo_mean mo_variance mo_skew mo_excess_kurtosis].
  pose proof (central_affine l k d 2 N) as C2. pose proof (central_affine l k d 3 N) as C3. pose proof (central_affine l k d 4 N) as C4.
  split; [apply mean_affine; exact N|].
  set (v' := central (map (fun x => k * x + d) l) (mean (map (fun x => k * x + d) l)) 2) in *.
  set (v := central l (mean l) 2) in *.
  assert (V : v' == k * k * v) by (rewrite C2; cbn; ring). split; [exact V|].
  assert (B : Qeq_bool v' 0 = Qeq_bool v 0).
  { rewrite (qeqb_comp _ _ V). destruct (Qeq_bool v 0) eqn:E.
    - apply Qeq_bool_eq in E. apply Qeq_eq_bool. rewrite E. ring.
    - destruct (Qeq_bool (k * k * v) 0) eqn:F; [|reflexivity]. apply Qeq_bool_neq in E. apply Qeq_bool_eq in F. exfalso.
      apply Qmult_integral in F as [F|F]; [|tauto]. apply Qmult_integral in F. tauto. }
  rewrite B. destruct (Qeq_bool v 0) eqn:E; cbn [same_skew same_opt]; [tauto|]. apply Qeq_bool_neq in E.
  split; [split; [rewrite C3; cbn; ring | exact V]|].
  rewrite C4. rewrite (powi_comp _ _ 2 V). cbn [powi]. field. tauto.
Qed.

Lemma qsum_perm l l' : Permutation l l' -> qsum l == qsum l'.
Proof. intros P. induction P; rewrite ?qsum_cons; lra. Qed.
Lemma mean_perm l l' : Permutation l l' -> mean l == mean l'.
Proof. intros P. unfold mean, qlen. rewrite (qsum_perm _ _ P), (Permutation_length P). reflexivity. Qed.
Lemma central_perm l l' n : Permutation l l' -> central l (mean l) n == central l' (mean l') n.
Proof.
  intros P. rewrite !central_avg. rewrite (avg_ext l _ (fun v => powi (v - mean l') n)).
  - unfold avg, qlen. rewrite (qsum_perm _ _ (Permutation_map _ P)), (Permutation_length P). reflexivity.
  - intros x. apply powi_comp. rewrite (mean_perm _ _ P). reflexivity.
Qed.
Lemma order_free l l' m : Permutation l l' -> statistical_moments l = Some m ->
  exists m', statistical_moments l' = Some m' /\ same_moments m' m.
Proof.
  intros P H. apply moments_some in H as [N ->].
  assert (N' : l' <> []) by (intros ->; apply Permutation_sym, Permutation_nil in P; contradiction).
  exists (mo l'). split; [apply moments_ne; exact N'|]. apply Permutation_sym in P.
  pose proof (central_perm _ _ 2 P) as C2. pose proof (central_perm _ _ 3 P) as C3. pose proof (central_perm _ _ 4 P) as C4.
  unfold same_moments. cbn [mo mo_mean mo_variance mo_skew mo_excess_kurtosis].
  split; [apply mean_perm; exact P|]. split; [exact C2|]. rewrite (qeqb_comp _ _ C2).
  destruct (Qeq_bool (central l (mean l) 2) 0) eqn:E; cbn [same_skew same_opt]; [tauto|].
  split; [split; assumption|]. rewrite C4, (powi_comp _ _ 2 C2). reflexivity.
Qed.
