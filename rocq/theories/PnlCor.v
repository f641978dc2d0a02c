(** Laws of profit and loss; loss before liquidation. *)
From Verif Require Import ProofBase StepLemmas Inv Spec SpecConfig SpecMarket SpecFlow LedgerProof TotalProof FlowCor.

(** ** C36 *)
Lemma pnl_is_gain k s entry exit q :
  k = Linear \/ (entry <> 0 /\ exit <> 0) -> pnl k s entry exit q = Done (gain k s q entry exit).
Proof.
  intros H. unfold pnl. destruct (Z.eqb_spec q 0) as [->|_].
  - f_equal. unfold gain, value. destruct k; cbn [Z.mul]; rewrite !Zquot_0_l; reflexivity.
  - destruct k; cbn; [reflexivity|]. destruct H as [|[H1 H2]]; [discriminate|]. unfold ddiv.
    destruct (Z.eqb_spec entry 0); [contradiction|]. destruct (Z.eqb_spec exit 0); [contradiction|]. reflexivity.
Qed.

Lemma gain_laws k s q entry exit :
  gain k s q entry entry = 0 /\ gain k s (- q) entry exit = - gain k s q entry exit /\
  gain k s q exit entry = - gain k s q entry exit.
Proof.
  pose proof (value_opp k s q entry). pose proof (value_opp k s q exit). unfold gain. repeat split; destruct k; lia.
Qed.
Lemma gain_monotone k s q entry a b : 0 < s -> 0 <= q -> 0 < a -> a <= b -> gain k s q entry a <= gain k s q entry b.
Proof.
  intros Hs Hq Ha Hab. unfold gain, value. destruct k.
  - assert (Z.quot (q * a) s <= Z.quot (q * b) s) by (apply Z.quot_le_mono; nia). lia.
  - assert (Z.quot (q * s) b <= Z.quot (q * s) a) by (apply Z.quot_le_compat_l; nia). lia.
Qed.

Lemma pnl_laws k s q entry exit : 0 < s -> 0 < entry -> 0 < exit -> pnl_law k s q entry exit.
Proof.
  intros Hs He Hx. exists (gain k s q entry exit). rewrite !pnl_is_gain by (right; lia).
  destruct (gain_laws k s q entry exit) as (H1 & H2 & H3). rewrite H2, H3. repeat split; intros.
  - subst. exact H1.
  - rewrite <- H1. apply gain_monotone; lia.
  - rewrite <- H1 at 1. apply gain_monotone; lia.
Qed.
Lemma pnl_monotone k s q entry a b ga gb :
  0 < s -> 0 < entry -> 0 < a -> a <= b -> pnl k s entry a q = Done ga -> pnl k s entry b q = Done gb ->
  (0 <= q -> ga <= gb) /\ (q <= 0 -> gb <= ga).
Proof.
  intros Hs He Ha Hab H1 H2. rewrite pnl_is_gain in H1, H2 by (right; lia). injection H1 as <-. injection H2 as <-.
  split; intros Hq; [apply gain_monotone; lia|].
  destruct (gain_laws k s (- q) entry a) as (_ & E1 & _). destruct (gain_laws k s (- q) entry b) as (_ & E2 & _).
  rewrite Z.opp_involutive in E1, E2. rewrite E1, E2. pose proof (gain_monotone k s (- q) entry a b Hs ltac:(lia) Ha Hab). lia.
Qed.

Lemma open_profit_reported c pos bid ask :
  c_kind c = Linear \/ (position_entry_price pos <> 0 /\ bid <> 0 /\ ask <> 0) ->
  position_unrealized_pnl c pos bid ask = Done (open_profit c pos bid ask).
Proof.
  intros H. destruct pos as [|i|i]; cbn [position_unrealized_pnl open_profit position_entry_price] in *; [reflexivity| |];
  unfold inner_unrealized_pnl; rewrite pnl_is_gain by tauto; reflexivity.
Qed.

(** ** C22 *)
Lemma floor_at a b : 0 <= a -> 0 < b -> exists n, Z.quot a b = n /\ 0 <= n /\ n * b <= a < (n + 1) * b.
Proof.
  intros Ha Hb. exists (a / b). rewrite Z.quot_div_nonneg by lia. split; [reflexivity|].
  pose proof (Z.div_pos a b Ha Hb). pose proof (Z.mod_pos_bound a b Hb). pose proof (Z.div_mod a b ltac:(lia)). lia.
Qed.

Lemma margin_flat c : initial_margin c Neutral = 0.
Proof.
  unfold initial_margin, margin_at, value. cbn [position_quantity position_entry_price Z.abs Z.mul].
  destruct (c_kind c); rewrite !Zquot_0_l; reflexivity.
Qed.

Section Loss.
  Variable c : config.
  Let s := c_scale c.
  Let imr := ct_imr (c_spec c).
  Let mm := ct_mm (c_spec c).
  Hypothesis Hs : 0 < s.
  Hypothesis Hi : 0 <= imr <= s.
  Hypothesis Hm : 0 <= mm <= imr.

  Lemma loss_linear pos bid ask :
    c_kind c = Linear -> pos_ok pos -> 0 <= position_entry_price pos -> 0 <= ask -> ~ due c pos bid ask ->
    let loss := - open_profit c pos bid ask in
    (loss - initial_margin c pos - 2) * s < Z.abs (position_quantity pos).
  Proof.
    intros Hk Hok He Ha Hd. cbv zeta. destruct pos as [|i|i]; cbn [open_profit position_quantity position_entry_price pos_ok due] in *.
    - rewrite margin_flat. cbn [Z.abs]. lia.
    - unfold initial_margin, margin_at, gain, value. cbn [position_quantity position_entry_price]. rewrite Hk. rewrite !Z.abs_eq by lia.
      fold s imr mm in Hd |- *. set (q := pi_qty i) in *. set (p := pi_entry i) in *. clearbody q p.
      assert (Hb : 0 <= bid) by nia.
      destruct (floor_at (q * p) s ltac:(nia) Hs) as (n & -> & Hn & Hn1 & Hn2).
      destruct (floor_at (q * bid) s ltac:(nia) Hs) as (k & -> & Hk0 & Hk1 & Hk2).
      destruct (floor_at (n * imr) s ltac:(nia) Hs) as (m & -> & Hm0 & Hm1 & Hm2).
      assert (A : n * mm <= n * imr) by nia.
      assert (B : n * s * (s - mm) <= q * p * (s - mm)) by (apply Z.mul_le_mono_nonneg_r; lia).
      assert (C : q * (p * (s - mm)) <= q * ((bid + 1) * s)) by (apply Z.mul_le_mono_nonneg_l; lia).
      assert (D : n * s * (s - mm) <= q * bid * s + q * s) by lia.
      assert (E : q * bid * s < (k + 1) * s * s) by (apply Z.mul_lt_mono_pos_r; lia).
      assert (F : (n * (s - mm)) * s < ((k + 1) * s + q) * s) by lia.
      apply Z.mul_lt_mono_pos_r in F; [|lia]. lia.
    - unfold initial_margin, margin_at, gain, value. cbn [position_quantity position_entry_price]. rewrite Hk. rewrite Z.abs_opp, !Z.abs_eq by lia.
      fold s imr mm in Hd |- *. set (q := pi_qty i) in *. set (p := pi_entry i) in *. clearbody q p.
      destruct (floor_at (q * p) s ltac:(nia) Hs) as (n & -> & Hn & Hn1 & Hn2).
      destruct (floor_at (q * ask) s ltac:(nia) Hs) as (k & -> & Hk0 & Hk1 & Hk2).
      destruct (floor_at (n * imr) s ltac:(nia) Hs) as (m & -> & Hm0 & Hm1 & Hm2).
      assert (A : n * mm <= n * imr) by nia.
      assert (B : k * s * s <= q * ask * s) by (apply Z.mul_le_mono_nonneg_r; lia).
      assert (C : q * (ask * s) <= q * (p * (s + mm))) by (apply Z.mul_le_mono_nonneg_l; lia).
      assert (D : q * p * (s + mm) < (n + 1) * s * (s + mm)) by (apply Z.mul_lt_mono_pos_r; lia).
      assert (E : (k * s) * s < ((n + 1) * (s + mm)) * s) by lia.
      apply Z.mul_lt_mono_pos_r in E; [|lia].
      assert (G : (k - n - m - 3) * s < 0) by lia. assert (k - n - m - 3 < 0) by nia.
      assert ((k - n - m - 2) * s <= 0) by (apply Z.mul_nonpos_nonneg; lia). lia.
  Qed.

  Lemma loss_linear_exact pos bid ask :
    c_kind c = Linear -> pos_ok pos -> 0 <= position_entry_price pos -> 0 <= ask -> (s | position_entry_price pos * (s - mm)) ->
    ~ due c pos bid ask -> - open_profit c pos bid ask <= initial_margin c pos + 2.
  Proof.
    intros Hk Hok He Ha Hx Hd. destruct pos as [|i|i]; cbn [open_profit position_quantity position_entry_price pos_ok due] in *.
    - rewrite margin_flat. lia.
    - unfold initial_margin, margin_at, gain, value. cbn [position_quantity position_entry_price]. rewrite Hk. rewrite !Z.abs_eq by lia.
      fold s imr mm in Hd |- *. set (q := pi_qty i) in *. set (p := pi_entry i) in *. clearbody q p.
      destruct Hx as [z Hz]. rewrite Hz in Hd. assert (Hb : z <= bid) by nia. assert (0 <= z) by nia.
      destruct (floor_at (q * p) s ltac:(nia) Hs) as (n & -> & Hn & Hn1 & Hn2).
      destruct (floor_at (q * bid) s ltac:(nia) Hs) as (k & -> & Hk0 & Hk1 & Hk2).
      destruct (floor_at (n * imr) s ltac:(nia) Hs) as (m & -> & Hm0 & Hm1 & Hm2).
      assert (A : n * mm <= n * imr) by nia.
      assert (B : n * s * (s - mm) <= q * p * (s - mm)) by (apply Z.mul_le_mono_nonneg_r; lia).
      assert (C : q * (p * (s - mm)) <= q * (bid * s)) by (apply Z.mul_le_mono_nonneg_l; nia).
      assert (E : q * bid * s < (k + 1) * s * s) by (apply Z.mul_lt_mono_pos_r; lia).
      assert (F : (n * (s - mm)) * s < ((k + 1) * s) * s) by lia.
      apply Z.mul_lt_mono_pos_r in F; [|lia]. nia.
    - unfold initial_margin, margin_at, gain, value. cbn [position_quantity position_entry_price]. rewrite Hk. rewrite Z.abs_opp, !Z.abs_eq by lia.
      fold s imr mm in Hd |- *. set (q := pi_qty i) in *. set (p := pi_entry i) in *. clearbody q p.
      destruct (floor_at (q * p) s ltac:(nia) Hs) as (n & -> & Hn & Hn1 & Hn2).
      destruct (floor_at (q * ask) s ltac:(nia) Hs) as (k & -> & Hk0 & Hk1 & Hk2).
      destruct (floor_at (n * imr) s ltac:(nia) Hs) as (m & -> & Hm0 & Hm1 & Hm2).
      assert (A : n * mm <= n * imr) by nia.
      assert (B : k * s * s <= q * ask * s) by (apply Z.mul_le_mono_nonneg_r; lia).
      assert (C : q * (ask * s) <= q * (p * (s + mm))) by (apply Z.mul_le_mono_nonneg_l; lia).
      assert (D : q * p * (s + mm) < (n + 1) * s * (s + mm)) by (apply Z.mul_lt_mono_pos_r; lia).
      assert (E : (k * s) * s < ((n + 1) * (s + mm)) * s) by lia.
      apply Z.mul_lt_mono_pos_r in E; [|lia]. nia.
  Qed.

  Lemma loss_inverse pos bid ask :
    c_kind c = Inverse -> pos_ok pos -> (pos <> Neutral -> 0 < position_entry_price pos) -> 0 < bid -> 0 < ask ->
    match pos with
    | Long i => mm < s /\ mm * (s + imr) <= imr * s /\ (s | pi_entry i * (s - mm))
    | _ => True
    end ->
    ~ due c pos bid ask -> - open_profit c pos bid ask <= initial_margin c pos + 2.
  Proof.
    intros Hk Hok He Hb Ha Hx Hd. destruct pos as [|i|i]; cbn [open_profit position_quantity position_entry_price pos_ok due] in *.
    - rewrite margin_flat. lia.
    - unfold initial_margin, margin_at, gain, value. cbn [position_quantity position_entry_price]. rewrite Hk. rewrite !Z.abs_eq by lia.
      assert (Hp : 0 < pi_entry i) by (apply He; discriminate). destruct Hx as (X1 & X2 & X3).
      fold s imr mm in Hd |- *. set (q := pi_qty i) in *. set (p := pi_entry i) in *. clearbody q p.
      destruct X3 as [z Hz]. rewrite Hz in Hd. assert (Hzb : z <= bid) by nia.
      destruct (floor_at (q * s) p ltac:(nia) Hp) as (n & -> & Hn & Hn1 & Hn2).
      destruct (floor_at (q * s) bid ltac:(nia) Hb) as (k & -> & Hk0 & Hk1 & Hk2).
      destruct (floor_at (n * imr) s ltac:(nia) Hs) as (m & -> & Hm0 & Hm1 & Hm2).
      assert (A : k * (p * (s - mm)) <= k * (bid * s)) by (apply Z.mul_le_mono_nonneg_l; nia).
      assert (B : k * bid * s < (n + 1) * p * s) by (apply Z.mul_lt_mono_pos_r; lia).
      assert (C : (k * (s - mm)) * p < ((n + 1) * s) * p) by lia. apply Z.mul_lt_mono_pos_r in C; [|lia].
      assert (D : k * (s - mm) * s < (n + 1) * s * s) by (apply Z.mul_lt_mono_pos_r; lia).
      assert (E : (n + 1) * (s * s) <= (n + 1) * ((s - mm) * (s + imr))) by (apply Z.mul_le_mono_nonneg_l; lia).
      assert (F : (k * s) * (s - mm) < ((n + 1) * (s + imr)) * (s - mm)) by lia. apply Z.mul_lt_mono_pos_r in F; [|lia]. nia.
    - unfold initial_margin, margin_at, gain, value. cbn [position_quantity position_entry_price]. rewrite Hk. rewrite Z.abs_opp, !Z.abs_eq by lia.
      assert (Hp : 0 < pi_entry i) by (apply He; discriminate).
      fold s imr mm in Hd |- *. set (q := pi_qty i) in *. set (p := pi_entry i) in *. clearbody q p.
      destruct (floor_at (q * s) p ltac:(nia) Hp) as (n & -> & Hn & Hn1 & Hn2).
      destruct (floor_at (q * s) ask ltac:(nia) Ha) as (k & -> & Hk0 & Hk1 & Hk2).
      destruct (floor_at (n * imr) s ltac:(nia) Hs) as (m & -> & Hm0 & Hm1 & Hm2).
      destruct (Z.leb_spec (n - m - 1) 0) as [H0|H0]; [lia|].
      assert (A : (n - m - 1) * (s + mm) <= n * s).
      { assert ((n - m - 1) * mm <= n * mm) by (apply Z.mul_le_mono_nonneg_r; lia). assert (n * mm <= n * imr) by nia. lia. }
      assert (B : (n - m - 1) * (ask * s) <= (n - m - 1) * (p * (s + mm))) by (apply Z.mul_le_mono_nonneg_l; lia).
      assert (C : p * ((n - m - 1) * (s + mm)) <= p * (n * s)) by (apply Z.mul_le_mono_nonneg_l; lia).
      assert (D : n * p * s <= q * s * s) by (apply Z.mul_le_mono_nonneg_r; lia).
      assert (E : ((n - m - 1) * ask) * s <= (q * s) * s) by lia. apply Z.mul_le_mono_pos_r in E; [|lia].
      assert (F : (n - m - 1) * ask < (k + 1) * ask) by lia. apply Z.mul_lt_mono_pos_r in F; [|lia]. lia.
  Qed.
End Loss.
