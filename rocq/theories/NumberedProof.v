(** The accounts in an array. *)
From Coq Require Import Permutation String.
From Verif Require Import ProofBase Types Exchange Spec Ledger SpecLedger Scenario AnyLedgerCor Numbered SpecNumbered.

Lemma six_cells l : six l -> exists a b c d e f, l = [a; b; c; d; e; f].
Proof. unfold six. intros H. do 6 (destruct l as [|? l]; [discriminate|]). destruct l; [|discriminate]. repeat eexists. Qed.
Lemma below n : (n < 6)%nat -> (n = 0 \/ n = 1 \/ n = 2 \/ n = 3 \/ n = 4 \/ n = 5)%nat. Proof. lia. Qed.
Lemma found l n : six l -> (n < 6)%nat -> exists t, nth_error l n = Some t.
Proof. intros H N. destruct (nth_error l n) as [t|] eqn:E; [exists t; reflexivity|]. apply nth_error_None in E. unfold six in H. lia. Qed.
Lemma missing l n : six l -> (6 <= n)%nat -> nth_error l n = None.
Proof. intros H N. apply nth_error_None. unfold six in H. lia. Qed.
Lemma between_iff tx : between tx = true <-> (nt_debit tx < 6)%nat /\ (nt_credit tx < 6)%nat.
Proof. unfold between. rewrite andb_true_iff, !Nat.ltb_lt. tauto. Qed.

Lemma put_length l : forall n t, length (put l n t) = length l.
Proof. induction l as [|x l IH]; intros [|n] t; cbn; [reflexivity..|]. rewrite IH. reflexivity. Qed.
Lemma put_nth l : forall n t m, (n < length l)%nat -> nth_error (put l n t) m = if Nat.eqb m n then Some t else nth_error l m.
Proof.
  induction l as [|x l IH]; intros n t m H; [inversion H|]. destruct n as [|n]; cbn [put].
  - destruct m; reflexivity.
  - destruct m as [|m]; [reflexivity|]. cbn [nth_error Nat.eqb]. apply IH. cbn in H. lia.
Qed.
Lemma equation dbg l : six l ->
  (dbg = true -> ~ even_books l -> array_equation dbg l = Panic PAccountingEquation) /\
  (dbg = false \/ even_books l -> array_equation dbg l = Done tt).
Proof.
  intros H. destruct (six_cells l H) as (a & b & c & d & e & f & ->). unfold array_equation, debug_assert, even_books, debits, credits. cbn [fold_left nth_error].
  split; [intros -> E|intros [->|E]]; [|reflexivity|].
  - match goal with |- context[?x =? ?y] => destruct (Z.eqb_spec x y) as [Q|Q] end; [|reflexivity]. exfalso. apply E. lia.
  - match goal with |- context[?x =? ?y] => replace (x =? y) with true by (symmetry; apply Z.eqb_eq; lia) end. destruct dbg; reflexivity.
Qed.

Lemma booked_even l d x c y l' : six l -> (d < 6)%nat -> (c < 6)%nat -> booked_to l d x c y l' -> x = y -> (even_books l' <-> even_books l).
Proof.
  intros H D C [_ B] <-. unfold even_books. destruct (B 0%nat) as [-> ->], (B 1%nat) as [-> ->], (B 2%nat) as [-> ->], (B 3%nat) as [-> ->], (B 4%nat) as [-> ->], (B 5%nat) as [-> ->].
  apply below in D. apply below in C. destruct D as [->|[->|[->|[->|[->| ->]]]]], C as [->|[->|[->|[->|[->| ->]]]]]; cbn [Nat.eqb]; lia.
Qed.
Lemma booked_odd l d x c l' : six l -> (d < 6)%nat -> booked_to l d x c 0 l' -> even_books l -> x <> 0 -> ~ even_books l'.
Proof.
  intros H D [_ B] E N. unfold even_books in *. destruct (B 0%nat) as [-> ->], (B 1%nat) as [-> ->], (B 2%nat) as [-> ->], (B 3%nat) as [-> ->], (B 4%nat) as [-> ->], (B 5%nat) as [-> ->].
  apply below in D. destruct D as [->|[->|[->|[->|[->| ->]]]]]; cbn [Nat.eqb]; repeat match goal with |- context[if ?b then 0 else 0] => replace (if b then 0 else 0) with 0 by (destruct b; reflexivity) end; lia.
Qed.

Lemma post_exact dbg l tx : six l ->
  (between tx = false -> array_post dbg l tx = Done (l, Err AccountLookupFailure)) /\
  (between tx = true -> distinct tx ->
     (dbg = true -> ~ even_books l -> array_post dbg l tx = Panic PAccountingEquation) /\
     (dbg = false \/ even_books l -> exists l', booked_to l (nt_debit tx) (nt_amount tx) (nt_credit tx) (nt_amount tx) l' /\
        array_post dbg l tx = Done (l', Ok tt))) /\
  (between tx = true -> ~ distinct tx ->
     (dbg = true -> even_books l -> nt_amount tx <> 0 -> array_post dbg l tx = Panic PAccountingEquation) /\
     (dbg = false -> exists l', booked_to l (nt_debit tx) (nt_amount tx) (nt_debit tx) 0 l' /\ array_post dbg l tx = Done (l', Ok tt))).
Proof.
  intros H. unfold distinct. destruct tx as [d c x]; cbn [nt_debit nt_credit nt_amount]. unfold array_post; cbn [nt_debit nt_credit nt_amount]. split.
  { intros B. unfold between in B. cbn [nt_debit nt_credit] in B. apply andb_false_iff in B. rewrite !Nat.ltb_ge in B.
    destruct (Nat.lt_ge_cases d 6) as [D|D]; [|rewrite (missing l d H D); reflexivity].
    destruct (found l d H D) as [t ->]. rewrite (missing l c H) by lia. reflexivity. }
  assert (L : forall n, (n < 6)%nat -> (n < length l)%nat) by (intros n; unfold six in H; lia).
  split; intros B N; apply between_iff in B; cbn [nt_debit nt_credit] in B; destruct B as [D C];
    destruct (found l d H D) as [t Et], (found l c H C) as [u Eu]; rewrite Et, Eu; cbv zeta; set (l2 := put _ d _).
  - assert (K : booked_to l d x c x l2).
    { split; [unfold six, l2; rewrite !put_length; exact H|]. intros n. unfold debits, credits, l2.
      rewrite !put_nth by (rewrite ?put_length; auto). destruct (Nat.eqb_spec n d) as [->|Nd].
      - rewrite Et. destruct (Nat.eqb_spec d c); [contradiction|]. cbn. lia.
      - destruct (Nat.eqb_spec n c) as [->|Nc]; [rewrite Eu; cbn; lia|]. destruct (nth_error l n); lia. }
    destruct (equation dbg l2 (proj1 K)) as [E1 E2]. rewrite (booked_even l d x c x l2 H D C K eq_refl) in E1, E2. split.
    + intros Q1 Q2. rewrite (E1 Q1 Q2). reflexivity.
    + intros Q. rewrite (E2 Q). exists l2. split; [exact K | reflexivity].
  - assert (Q : d = c) by (destruct (Nat.eq_dec d c); [assumption | contradiction]). subst c. rewrite Et in Eu. injection Eu as <-.
    assert (K : booked_to l d x d 0 l2).
    { split; [unfold six, l2; rewrite !put_length; exact H|]. intros n. unfold debits, credits, l2.
      rewrite !put_nth by (rewrite ?put_length; auto). destruct (Nat.eqb_spec n d) as [->|Nd]; [rewrite Et; cbn; lia|]. destruct (nth_error l n); lia. }
    destruct (equation dbg l2 (proj1 K)) as [E1 E2]. split.
    + intros Q1 Q2 Q3. rewrite (E1 Q1 (booked_odd l d x d l2 H D K Q2 Q3)). reflexivity.
    + intros Q. rewrite (E2 (or_introl Q)). exists l2. split; [exact K | reflexivity].
Qed.

Lemma names : forall n, ((6 <= n)%nat <-> account_from_int n = None) /\
  forall m s, account_from_int n = Some s -> account_from_int m = Some s -> n = m.
Proof.
  intros n. split.
  - do 6 (destruct n as [|n]; [split; [lia|discriminate]|]). split; [reflexivity|lia].
  - intros m s. do 6 (destruct n as [|n]; [do 6 (destruct m as [|m]; [cbn; congruence|]); discriminate|]). discriminate.
Qed.
Lemma trace_exact dbg l tx : six l ->
  (between tx = false -> array_transfer true dbg l tx = None /\ array_transfer false dbg l tx = Some (Done (l, Err AccountLookupFailure))) /\
  (between tx = true -> array_transfer true dbg l tx = array_transfer false dbg l tx /\ array_transfer false dbg l tx = Some (array_post dbg l tx)).
Proof.
  intros H. destruct (post_exact dbg l tx H) as [F _]. unfold array_transfer, debug_tx.
  destruct (names (nt_debit tx)) as [D _], (names (nt_credit tx)) as [C _]. split; intros B.
  - rewrite (F B). split; [|reflexivity]. unfold between in B. apply andb_false_iff in B. rewrite !Nat.ltb_ge in B.
    destruct B as [B|B]; [rewrite (proj1 D B); reflexivity|]. rewrite (proj1 C B). destruct (account_from_int (nt_debit tx)); reflexivity.
  - apply between_iff in B. destruct (account_from_int (nt_debit tx)); [|pose proof (proj2 D eq_refl); lia].
    destruct (account_from_int (nt_credit tx)); [|pose proof (proj2 C eq_refl); lia]. split; reflexivity.
Qed.
Lemma balance_exact l n : six l ->
  ((n < 6)%nat -> array_balance l n = Ok (debits l n - credits l n)) /\ ((6 <= n)%nat -> array_balance l n = Err AccountLookupFailure).
Proof.
  intros H. unfold array_balance, debits, credits. split; intros N; [|rewrite (missing l n H N); reflexivity].
  destruct (found l n H N) as [t ->]. reflexivity.
Qed.
Lemma tx_exact d c x :
  (x <= 0 -> numbered_tx_new d c x = Panic PTxAmount) /\
  (0 < x -> d = c -> numbered_tx_new d c x = Panic PTxSameAccount) /\
  (0 < x -> d <> c -> numbered_tx_new d c x = Done {| nt_debit := d; nt_credit := c; nt_amount := x |}).
Proof.
  unfold numbered_tx_new. split; [|split]; intros H; destruct (Z.ltb_spec 0 x); try lia; cbn [assert bind]; [reflexivity|intros E..]; destruct (Nat.eqb_spec d c); try contradiction; reflexivity.
Qed.

(** ** In place of the record *)
Lemma number_below id : (number id < 6)%nat. Proof. destruct id; cbn; lia. Qed.
Lemma number_inj i j : number i = number j -> i = j. Proof. destruct i, j; cbn; congruence. Qed.
Lemma moves_differ d k : moves d k -> d <> k. Proof. intros M ->. destruct k; exact M. Qed.
Lemma array_lawful traced dbg start : lawful (in_array traced dbg) start (fun l => six l /\ even_books l).
Proof.
  split.
  - cbn [in_array a_new a_balance]. unfold array_new. cbv zeta. set (l := put _ _ _).
    assert (S : six l) by reflexivity. assert (E : even_books l) by (unfold even_books, debits, credits, l; cbn; lia).
    rewrite (proj2 (equation dbg l S) (or_intror E)). cbn [bind]. exists l. split; [reflexivity|]. split; [split; assumption|].
    intros id. unfold array_balance, l. destruct id; cbn [number nth_error put repeat nth failure post_debit post_credit opening]; unfold net_balance; cbn [ta_debits ta_credits post_debit post_credit]; apply f_equal, f_equal; lia.
  - intros l d k x [S E] M X. cbn [in_array a_transfer a_balance tx_debit tx_credit tx_amount]. set (tx := Build_numbered_tx _ _ _).
    assert (B : between tx = true) by (apply between_iff; split; apply number_below).
    assert (N : distinct tx) by (intros Q; apply number_inj in Q; exact (moves_differ d k M Q)).
    destruct (trace_exact dbg l tx S) as [_ T]. destruct (T B) as [T1 T2].
    destruct (proj2 (proj1 (proj2 (post_exact dbg l tx S)) B N) (or_intror E)) as (l' & K & P).
    assert (A : array_transfer traced dbg l tx = Some (Done (l', Ok tt))) by (destruct traced; rewrite ?T1, T2, P; reflexivity).
    rewrite A. cbn [bind failure]. exists l'. split; [reflexivity|].
    split; [split; [exact (proj1 K) | apply (booked_even l _ _ _ _ l' S (number_below d) (number_below k) K eq_refl), E]|].
    intros id v Hv. rewrite (proj1 (balance_exact l (number id) S) (number_below id)) in Hv. cbn [failure] in Hv. injection Hv as <-.
    rewrite (proj1 (balance_exact l' (number id) (proj1 K)) (number_below id)). cbn [failure]. do 2 f_equal.
    destruct (proj2 K (number id)) as [-> ->]. subst tx; cbn [nt_debit nt_credit nt_amount].
    destruct (account_id_eq_dec id d) as [->|Nd].
    + rewrite Nat.eqb_refl. destruct (Nat.eqb_spec (number d) (number k)) as [Q|Q]; [apply number_inj in Q; destruct (moves_differ d k M Q) | lia].
    + destruct (Nat.eqb_spec (number id) (number d)) as [Q|Q]; [apply number_inj in Q; contradiction|].
      destruct (account_id_eq_dec id k) as [->|Nk]; [rewrite Nat.eqb_refl; lia|].
      destruct (Nat.eqb_spec (number id) (number k)) as [Q2|Q2]; [apply number_inj in Q2; contradiction | lia].
Qed.
Lemma array_same traced dbg c ops :
  match play c ops with
  | Panic p => a_play (in_array traced dbg) c ops = Panic p
  | Done (e', outs) => exists l e, a_play (in_array traced dbg) c ops = Done (l, (e, outs)) /\ same_rest e e' /\ six l /\ even_books l /\
      forall id, array_balance l (number id) = Ok (margin_balance_of (ex_acc e') id)
  end.
Proof.
  pose proof (play_same (in_array traced dbg) _ c ops (array_lawful traced dbg (c_start c))) as H.
  destruct (play c ops) as [[e' outs]|p]; [|exact H]. destruct H as (l & e & P & R & B & S & E). exists l, e.
  split; [exact P|]. split; [exact R|]. split; [exact S|]. split; [exact E|]. intros id. specialize (B id). cbn [in_array a_balance] in B. 
  destruct (array_balance l (number id)) as [v|[]]; cbn [failure] in B; [injection B as ->; reflexivity|discriminate].
Qed.

(** ** Many transactions *)
Lemma cells_ext l l' : six l -> six l' -> (forall n, debits l' n = debits l n /\ credits l' n = credits l n) -> l' = l.
Proof.
  intros H H' E. destruct (six_cells l H) as (a & b & c & d & e & f & ->), (six_cells l' H') as (a' & b' & c' & d' & e' & f' & ->).
  pose proof (E 0%nat) as E0. pose proof (E 1%nat) as E1. pose proof (E 2%nat) as E2. pose proof (E 3%nat) as E3. pose proof (E 4%nat) as E4. pose proof (E 5%nat) as E5.
  unfold debits, credits in *. cbn [nth_error] in *. destruct a, b, c, d, e, f, a', b', c', d', e', f'; cbn in *. 
  destruct E0 as [-> ->], E1 as [-> ->], E2 as [-> ->], E3 as [-> ->], E4 as [-> ->], E5 as [-> ->]. reflexivity.
Qed.
Lemma post_all_exact dbg txs : (forall tx, In tx txs -> distinct tx) -> forall l, six l -> dbg = false \/ even_books l ->
  exists l', array_post_all dbg l txs = Done l' /\ six l' /\ (even_books l' <-> even_books l) /\
    forall n, debits l' n = debits l n + debited txs n /\ credits l' n = credits l n + credited txs n.
Proof.
  induction txs as [|tx txs IH]; intros D l S Q; cbn [array_post_all].
  { exists l. split; [reflexivity|]. split; [exact S|]. split; [tauto|]. intros n; cbn. lia. }
  assert (D1 := D tx (or_introl eq_refl)). assert (D2 : forall t, In t txs -> distinct t) by (intros; apply D; right; assumption).
  destruct (post_exact dbg l tx S) as (F & G & _). destruct (between tx) eqn:B.
  - destruct (proj2 (G eq_refl D1) Q) as (l1 & K & ->). cbn [bind]. apply between_iff in B.
    pose proof (booked_even l _ _ _ _ l1 S (proj1 B) (proj2 B) K eq_refl) as EV.
    destruct (IH D2 l1 (proj1 K)) as (l' & P & S' & EV' & C); [rewrite EV; exact Q|]. exists l'. split; [exact P|]. split; [exact S'|]. split; [rewrite EV'; exact EV|].
    intros n. destruct (C n) as [-> ->], (proj2 K n) as [-> ->]. cbn [debited credited]. rewrite (proj2 (between_iff tx) B). cbn [andb]. lia.
  - rewrite (F eq_refl). cbn [bind]. destruct (IH D2 l S Q) as (l' & P & S' & EV' & C). exists l'. split; [exact P|]. split; [exact S'|]. split; [exact EV'|].
    intros n. destruct (C n) as [-> ->]. cbn [debited credited]. rewrite B. cbn [andb]. lia.
Qed.
Lemma debited_perm txs txs' : Permutation txs txs' -> forall n, debited txs n = debited txs' n /\ credited txs n = credited txs' n.
Proof. induction 1; intros n; cbn [debited credited]; try lia; [specialize (IHPermutation n); lia|]. specialize (IHPermutation1 n). specialize (IHPermutation2 n). lia. Qed.
Lemma post_all_order dbg txs txs' l : (forall tx, In tx txs -> distinct tx) -> six l -> dbg = false \/ even_books l -> Permutation txs txs' ->
  array_post_all dbg l txs = array_post_all dbg l txs'.
Proof.
  intros D S Q P. destruct (post_all_exact dbg txs D l S Q) as (a & -> & Sa & _ & A).
  destruct (post_all_exact dbg txs') with (l := l) as (b & -> & Sb & _ & B); [|exact S|exact Q|].
  { intros t I. apply D. apply Permutation_sym in P. exact (Permutation_in t P I). }
  f_equal. apply cells_ext; [exact Sb | exact Sa|]. intros n. destruct (A n) as [-> ->], (B n) as [-> ->], (debited_perm _ _ P n) as [-> ->]. split; reflexivity.
Qed.
