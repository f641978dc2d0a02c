(** Consequences of the exact overflow conditions. *)
From Verif Require Import Base Types Filters Accounting Currency Position OrderBook OrderMargin Risk MarketUpdate Tracker Exchange Width Fixed
  Spec SpecBuild SpecFixed SpecFits SpecNeeds NeedsProof Scenario ScenarioFixed.

Lemma play_exact w c ops : overflows_exactly w (w_play w c ops) (n_play c ops) (u_play c ops).
Proof. apply exactly, t_play. Qed.
Lemma step_exact w c e o : overflows_exactly w (w_step w c e o) (n_step c e o) (step c e o).
Proof. apply exactly, t_step. Qed.

Lemma bits_spec w z : 0 < w -> bits z <= w <-> in_range w z.
Proof.
  intros Hw. unfold bits, in_range. set (v := if z <? 0 then - z else z + 1).
  assert (Hv : 0 < v) by (unfold v; destruct (z <? 0) eqn:E; lia).
  assert (H : Z.log2_up v <= w - 1 <-> v <= 2 ^ (w - 1)) by (symmetry; apply Z.log2_up_le_pow2; lia).
  unfold v in *; destruct (z <? 0) eqn:E; lia.
Qed.

Lemma width_one l : 1 <= width_of l.
Proof. induction l as [|[z|z|z] l IH]; cbn [width_of fold_right] in *; unfold width_of in *; lia. Qed.

Lemma width_fits w l : 0 < w -> Forall (machine_integer w) l <-> width_of l <= w /\ Forall (fun n => ~ other_overflow n) l.
Proof.
  intros Hw. induction l as [|n l IH].
  - split; [intros _; split; [cbn; lia | apply Forall_nil] | intros _; apply Forall_nil].
  - rewrite !Forall_cons_iff, IH. unfold width_of in *; destruct n as [z|z|z]; cbn [fold_right machine_integer other_overflow].
    + rewrite <- (bits_spec w z Hw). split; [intros (H1 & H2 & H3) | intros (H1 & H2 & H3)]; repeat split; try tauto; lia.
    + split; [intros (H1 & H2 & H3) | intros (H1 & H2 & H3)]; repeat split; try tauto; lia.
    + unfold in_range; split; [intros (H1 & H2 & H3) | intros (H1 & H2 & H3)]; repeat split; try tauto; lia.
Qed.

Lemma machine_dec w n : {machine_integer w n} + {~ machine_integer w n}.
Proof. destruct (nfits w n) eqn:E; [left; apply nfits_iff; exact E | right; intros H; apply nfits_iff in H; congruence]. Qed.

Lemma overflow_iff w c ops :
  w_play w c ops = Overflow <-> Exists (fun n => ~ machine_integer w n) (n_play c ops).
Proof.
  destruct (play_exact w c ops) as [H1 H2].
  destruct (Forall_dec _ (machine_dec w) (n_play c ops)) as [F|F].
  - rewrite (H1 F). split; [discriminate|]. intros E. exfalso. apply Exists_exists in E. destruct E as (n & Hn & E).
    rewrite Forall_forall in F. exact (E (F n Hn)).
  - rewrite (H2 F). split; [|reflexivity]. intros _. apply neg_Forall_Exists_neg; [apply machine_dec | exact F].
Qed.

Lemma width_iff w c ops : 0 < w -> Forall (fun n => ~ other_overflow n) (n_play c ops) ->
  (w_play w c ops = Overflow <-> w < width_of (n_play c ops)).
Proof.
  intros Hw Ho. destruct (play_exact w c ops) as [H1 H2].
  pose proof (width_fits w (n_play c ops) Hw) as HW.
  split.
  - intros E. destruct (Z.lt_ge_cases w (width_of (n_play c ops))) as [L|G]; [exact L|].
    rewrite H1 in E by tauto. discriminate.
  - intros L. apply H2. intros F. apply HW in F. lia.
Qed.

(** The functions one by one. *)
Lemma arithmetic_exact w k s :
  (forall q p, overflows_exactly w (w_convert_from w k s q p) (n_convert k s q p) (convert_from k s q p)) /\
  (forall en ex q, overflows_exactly w (w_pnl w k s en ex q) (n_pnl k s en ex q) (pnl k s en ex q)) /\
  (forall p0 q0 p1 q1, overflows_exactly w (w_new_weighted_price w s p0 q0 p1 q1) (n_weighted s p0 q0 p1 q1) (new_weighted_price s p0 q0 p1 q1)).
Proof. split; [|split]; intros; apply exactly; [apply t_convert | apply t_pnl | apply t_weighted]. Qed.

Lemma ledger_exact w dbg acc d c amt :
  overflows_exactly w (w_transfer w dbg acc d c amt) (n_transfer dbg acc d c amt) (transfer dbg acc d c amt).
Proof. apply exactly, t_transfer. Qed.

Lemma margin_exact w c book pos o :
  overflows_exactly w (w_order_margin_internal w c book pos o) (n_order_margin c book pos o) (order_margin_internal c book pos o).
Proof. apply exactly, t_om_internal. Qed.

Lemma debug_needs_more :
  ~ (forall w c ops x, w_play w (release c) ops = Fine (Done x) -> w_play w c ops = Fine (Done x)).
Proof.
  intros H. specialize (H 26 (demo_cfg Linear true) (idle_ops 2)).
  assert (O : w_play 26 (demo_cfg Linear true) (idle_ops 2) = Overflow) by (vm_compute; reflexivity).
  rewrite O in H.
  assert (R : returns (w_play 26 (release (demo_cfg Linear true)) (idle_ops 2)) = true) by (vm_compute; reflexivity).
  destruct (w_play 26 (release (demo_cfg Linear true)) (idle_ops 2)) as [[x|p]|]; try discriminate R.
  specialize (H x eq_refl). discriminate H.
Qed.
