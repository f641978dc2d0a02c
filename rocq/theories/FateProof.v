(** Every accepted limit order rests, was filled or was withdrawn. *)
From Coq Require Import Permutation Sorted.
From Verif Require Import ProofBase BookLemmas StepLemmas FillLemmas OpLemmas Inv BookProof OrderProof Spec SpecBook SpecConfig SpecTrack SpecFate Stats TrackProof.

Lemma events_completed c u l :
  flat_map (fun v => match v with FullyFilled f => [fl_id f] | PartiallyFilled _ => [] end) (flat_map (event c u) l)
  = ids (filter (fully c u) l).
Proof.
  induction l as [|o l IH]; [reflexivity|]. cbn [flat_map filter]. rewrite flat_map_app, IH, event_eq, fully_eq.
  destruct (fillq c u o) as [q|]; [|reflexivity]. cbn [flat_map app]. unfold fill_event.
  destruct (q =? lo_rem o); reflexivity.
Qed.

Lemma filter_split {A} (f : A -> bool) l : Permutation l (filter (fun x => negb (f x)) l ++ filter f l).
Proof.
  induction l as [|x l IH]; [constructor|]. cbn [filter]. destruct (f x); cbn [negb].
  - rewrite <- Permutation_middle. constructor. exact IH.
  - cbn [app]. constructor. exact IH.
Qed.

Lemma step_fate c e o e' r :
  is_check o = false -> book_change c e e' o r ->
  Permutation (ids (ex_active e) ++ map lo_id (accepted_in (o, r)))
              (ids (ex_active e') ++ completed_in (o, r) ++ withdrawn_in (o, r)).
Proof.
  intros Hc H. destruct H as [o r Ha Hn Hf Ham Hcan Hmk Hupd|sd p q uid ord (-> & _) Ha Hn|b y Hfb Hp Hn
    |id sd p q uid y err Hp0 Hq0 Hg Hp Hn _ H1 H2|id sd p q uid y mid ord e1 Hp0 Hq0 Hg Hp Hn1 _ _ (-> & _) Ha Hn
    |u ru o r e0 e1 Ho Hu Hcf Hlf Hf Hp Hn].
  - rewrite Ha. apply Permutation_app_head.
    destruct o as [ru|sd q uid|sd p q uid|b|id sd p q uid|ru]; try discriminate Hc.
    + destruct r as [[| | |]|]; cbn; try constructor. cbn in Hf. subst l. constructor.
    + destruct r as [[| | |]|]; cbn; constructor.
    + destruct r as [[| | |]|]; cbn; try constructor. contradiction.
    + destruct (Hcan b eq_refl) as [err ->]. constructor.
    + destruct (Ham id sd p q uid eq_refl) as [[err ->] G]. cbn [accepted_in map completed_in reported_in flat_map withdrawn_in app].
      destruct (well_formed p q) eqn:W; [|constructor]. unfold well_formed in W.
      destruct (G ltac:(lia) ltac:(lia)) as [_ E]. injection E as ->. destruct (_ <? _); constructor.
  - rewrite Ha, ids_app. cbn. rewrite app_nil_r. reflexivity.
  - cbn [accepted_in map completed_in reported_in flat_map withdrawn_in app]. rewrite app_nil_r.
    unfold ids. rewrite Hp. cbn [map]. apply Permutation_cons_append.
  - assert (W : well_formed p q = true) by (unfold well_formed; lia).
    cbn [accepted_in map completed_in reported_in flat_map withdrawn_in app]. rewrite W, app_nil_r.
    apply get_by_id_in in Hg as [_ <-].
    assert (Permutation (ids (ex_active e)) (ids (ex_active e') ++ [lo_id y])).
    { unfold ids. rewrite Hp. cbn [map]. apply Permutation_cons_append. }
    destruct err; try exact H; [exfalso; eapply H1; reflexivity | contradiction H2; reflexivity].
  - assert (W : well_formed p q = true) by (unfold well_formed; lia).
    cbn [accepted_in map completed_in reported_in flat_map withdrawn_in app]. rewrite W.
    apply get_by_id_in in Hg as [_ <-]. rewrite Ha, ids_app. unfold ids. rewrite Hp. cbn [map app].
    rewrite Permutation_cons_append. reflexivity.
  - destruct Ho as [[-> ->]|[-> ->]]; [|discriminate Hc].
    cbn [accepted_in map withdrawn_in]. unfold completed_in. cbn [reported_in]. rewrite !app_nil_r, events_completed.
    unfold ids. rewrite Hp, map_map. rewrite (map_ext _ lo_id (refill_id c u)). rewrite <- map_app. apply Permutation_map, filter_split.
Qed.

Lemma perm_four {A} (a b c d : list A) : Permutation (a ++ b ++ c ++ d) ((c ++ a) ++ d ++ b).
Proof.
  rewrite <- app_assoc. transitivity (a ++ c ++ d ++ b); [|apply Permutation_app_swap_app].
  apply Permutation_app_head. rewrite (app_assoc c d b). apply Permutation_app_comm.
Qed.

(** What a successful cancel returns, and that accepted orders were well formed. *)
Lemma returned_shape c ops e outs :
  history c ops e outs -> forall h, In h (combine ops outs) ->
  (forall x, snd h = Ok x -> forall b, fst h = OpCancel b -> exists y, x = OutLimit y) /\
  Z.of_nat (length (accepted_in h)) <= limit_submitted h.
Proof.
  intros H. refine (history_ind c (fun e ops outs => forall h, In h (combine ops outs) -> (forall x, snd h = Ok x -> forall b, fst h = OpCancel b -> exists y, x = OutLimit y) /\ Z.of_nat (length (accepted_in h)) <= limit_submitted h) _ _ ops e outs H); clear ops e outs H.
  - intros e0 _ h [].
  - intros e ops outs o e' r Hh IH Hs h Hin. fold (calls (ops ++ [o]) (outs ++ [r])) in Hin.
    rewrite calls_snoc in Hin by (eapply history_length; eassumption).
    apply in_app_or in Hin as [Hin|[<-|[]]]; [apply IH; exact Hin|]. clear IH Hh. split.
    + cbn [fst snd]. intros x -> b ->. cbn [step] in Hs. apply map_out_done in Hs as (r0 & _ & E).
      destruct r0; [|discriminate]. injection E as ->. eauto.
    + destruct o; cbn [accepted_in limit_submitted]; try (cbn; lia).
      * cbn [step] in Hs. pose proof (limit_new_formed sd price qty uid) as F.
        destruct (limit_new sd price qty uid); rewrite F; [|inv; cbn; lia]. destruct r as [[]|]; cbn; lia.
      * cbn [step] in Hs. pose proof (limit_new_formed sd price qty uid) as F.
        destruct (limit_new sd price qty uid); rewrite F; [|inv; cbn; lia]. destruct r as [[]|[]]; cbn; lia.
Qed.

Lemma fates c ops e outs :
  0 <= c_max c <= 10000 -> no_check ops -> history c ops e outs ->
  Permutation (accepted_ids ops outs) (ids (ex_active e) ++ completed ops outs ++ withdrawn ops outs).
Proof.
  intros Hm Hck H. revert Hck.
  refine (history_ind c (fun e ops outs => no_check ops -> Permutation (accepted_ids ops outs) (ids (ex_active e) ++ completed ops outs ++ withdrawn ops outs)) _ _ ops e outs H); clear ops e outs H.
  - intros e0 H _. apply init_fields in H as (_ & _ & _ & _ & _ & -> & _). constructor.
  - intros e ops outs o e' r Hh IH Hs Hck. pose proof (history_inv _ _ _ _ Hm Hh) as HI.
    apply step_book in Hs; [|lia|exact HI].
    assert (Hck' : no_check ops) by (intros x Hx; apply Hck, in_or_app; auto). specialize (IH Hck').
    assert (Ho : is_check o = false) by (apply Hck, in_or_app; right; left; reflexivity).
    pose proof (step_fate _ _ _ _ _ Ho Hs) as F.
    unfold accepted_ids, accepted_orders, completed, withdrawn in *. rewrite calls_snoc by (eapply history_length; eassumption).
    rewrite !flat_map_app, map_app. cbn [flat_map]. rewrite !app_nil_r.
    rewrite IH. set (A := ids (ex_active e)) in *. set (A' := ids (ex_active e')) in *.
    set (C := flat_map completed_in (calls ops outs)). set (W := flat_map withdrawn_in (calls ops outs)).
    set (a := map lo_id (accepted_in (o, r))) in *. set (cc := completed_in (o, r)) in *. set (w := withdrawn_in (o, r)) in *.
    transitivity ((A ++ a) ++ C ++ W).
    { rewrite <- !app_assoc. apply Permutation_app_head. rewrite app_assoc. apply Permutation_app_comm. }
    rewrite F, <- !app_assoc. apply Permutation_app_head. rewrite perm_four, <- !app_assoc. reflexivity.
Qed.

Lemma accepted_sorted h :
  StronglySorted Z.lt (flat_map issued_in h) ->
  StronglySorted Z.lt (map lo_id (flat_map accepted_in h)) /\
  (forall i, In i (map lo_id (flat_map accepted_in h)) -> In i (flat_map issued_in h)).
Proof.
  induction h as [|[o r] h IH]; intros H; [cbn; split; [constructor|tauto]|].
  assert (D : accepted_in (o, r) = [] \/ exists x, accepted_in (o, r) = [x] /\ issued_in (o, r) = [lo_id x]).
  { destruct o; auto; destruct r as [[]|]; auto; right; eexists; split; reflexivity. }
  cbn [flat_map] in *. destruct D as [D|(x & D1 & D2)].
  - rewrite D. cbn [app]. assert (H' : StronglySorted Z.lt (flat_map issued_in h)).
    { clear -H. induction (issued_in (o, r)) as [|y l IHl]; [exact H|]. inversion H; auto. }
    destruct (IH H') as [I1 I2]. split; [exact I1|]. intros i Hi. apply in_or_app. auto.
  - rewrite D1, D2 in *. cbn [app map] in *. inversion H as [|? ? H1 H2]; subst. destruct (IH H1) as [I1 I2]. split.
    + constructor; [exact I1|]. rewrite Forall_forall in *. intros i Hi. apply H2, I2, Hi.
    + intros i [<-|Hi]; [left; reflexivity | right; auto].
Qed.
Lemma sorted_nodup l : StronglySorted Z.lt l -> NoDup l.
Proof.
  induction 1 as [|a l H IH F]; constructor; [|exact IH]. rewrite Forall_forall in F. intros Hin. specialize (F a Hin). lia.
Qed.

Lemma fates_once c ops e outs :
  0 <= c_max c <= 10000 -> no_check ops -> history c ops e outs ->
  NoDup (ids (ex_active e) ++ completed ops outs ++ withdrawn ops outs).
Proof.
  intros Hm Hck H. eapply Permutation_NoDup; [apply (fates _ _ _ _ Hm Hck H)|].
  destruct (ids_increase _ _ _ _ Hm H) as [N _]. apply sorted_nodup. exact (proj1 (accepted_sorted _ N)).
Qed.

Lemma lengths_all c ops e outs :
  0 <= c_max c <= 10000 -> no_check ops -> history c ops e outs ->
  let t := ex_trk e in
  tk_fully_filled t = Z.of_nat (length (completed ops outs)) /\ tk_cancelled t = Z.of_nat (length (withdrawn ops outs)) /\
  Z.of_nat (length (accepted_ids ops outs)) = Z.of_nat (length (ex_active e)) + tk_fully_filled t + tk_cancelled t /\
  Z.of_nat (length (accepted_ids ops outs)) <= tk_sub_limit t /\ 0 <= tk_fully_filled t /\ 0 <= tk_cancelled t.
Proof.
  intros Hm Hck H t. pose proof (Permutation_length (fates _ _ _ _ Hm Hck H)) as L. rewrite !app_length in L.
  destruct (history_tally c ops e outs Hm Hck H) as [T1 T2 _ T4 _ _ _ _]. fold t in T1, T2, T4.
  assert (B : forall h, 0 <= limit_completed h /\ 0 <= limit_cancelled h).
  { intros [o r]. unfold limit_completed, limit_cancelled. destruct o; try lia; destruct r as [[]|[]]; try destruct (well_formed _ _); lia. }
  assert (C : tk_fully_filled t = Z.of_nat (length (completed ops outs))).
  { rewrite T4. unfold completed, tally, calls. clear. induction (combine ops outs) as [|h l IH]; [reflexivity|].
    unfold sumZ in *. cbn [map fold_right flat_map]. rewrite app_length, Nat2Z.inj_add, IH. f_equal.
    destruct h as [o r]. unfold limit_completed, completed_in, reported_in.
    destruct o; try reflexivity. destruct r as [[]|]; try reflexivity.
    match goal with |- _ = Z.of_nat (length (flat_map _ ?x)) => rename x into us end.
    clear. induction us as [|u us IH]; [reflexivity|]. cbn [filter flat_map]. destruct u; cbn [app length]; lia. }
  assert (W : forall h, In h (combine ops outs) -> limit_cancelled h = Z.of_nat (length (withdrawn_in h))).
  { intros h Hh. destruct (returned_shape _ _ _ _ H h Hh) as [R1 R2]. destruct h as [o r]. unfold limit_cancelled, withdrawn_in. destruct o; try reflexivity.
    - destruct r as [x|]; [|reflexivity]. destruct (R1 x eq_refl _ eq_refl) as [y ->]. reflexivity.
    - destruct (well_formed _ _); [|reflexivity]. destruct r as [|[]]; reflexivity. }
  assert (D : tk_cancelled t = Z.of_nat (length (withdrawn ops outs))).
  { rewrite T2. unfold withdrawn, tally, calls. clear -W. induction (combine ops outs) as [|h l IH]; [reflexivity|].
    unfold sumZ in *. cbn [map fold_right flat_map]. rewrite app_length, Nat2Z.inj_add, IH by (intros; apply W; right; assumption). f_equal.
    apply W. left; reflexivity. }
  assert (S : Z.of_nat (length (accepted_ids ops outs)) <= tk_sub_limit t).
  { rewrite T1. unfold accepted_ids, accepted_orders, tally, calls. rewrite map_length.
    assert (Hw : forall h, In h (combine ops outs) -> Z.of_nat (length (accepted_in h)) <= limit_submitted h).
    { intros h Hh. destruct (returned_shape _ _ _ _ H h Hh) as [_ R2]. exact R2. }
    clear -Hw. induction (combine ops outs) as [|h l IH]; [cbn; lia|].
    unfold sumZ in *. cbn [map fold_right flat_map]. rewrite app_length, Nat2Z.inj_add.
    specialize (IH (fun h' Hh => Hw h' (or_intror Hh))). specialize (Hw h (or_introl eq_refl)). lia. }
  unfold ids in L. rewrite map_length in L.
  split; [exact C|]. split; [exact D|]. split; [lia|]. split; [exact S|]. split; lia.
Qed.

Lemma lengths c ops e outs :
  0 <= c_max c <= 10000 -> no_check ops -> history c ops e outs ->
  let t := ex_trk e in
  Z.of_nat (length (accepted_ids ops outs)) = Z.of_nat (length (ex_active e)) + tk_fully_filled t + tk_cancelled t /\
  Z.of_nat (length (accepted_ids ops outs)) <= tk_sub_limit t /\ 0 <= tk_fully_filled t /\ 0 <= tk_cancelled t.
Proof. intros Hm Hck H. destruct (lengths_all _ _ _ _ Hm Hck H) as (_ & _ & R). exact R. Qed.

Lemma ratios c ops e outs :
  0 <= c_max c <= 10000 -> no_check ops -> history c ops e outs ->
  limit_order_fill_ratio (ex_trk e) = (Z.of_nat (length (completed ops outs)), tally limit_submitted (calls ops outs)) /\
  limit_order_cancellation_ratio (ex_trk e) = (Z.of_nat (length (withdrawn ops outs)), tally limit_submitted (calls ops outs)) /\
  Z.of_nat (length (completed ops outs)) + Z.of_nat (length (withdrawn ops outs)) <= tally limit_submitted (calls ops outs).
Proof.
  intros Hm Hck H. destruct (lengths_all _ _ _ _ Hm Hck H) as (C & D & R1 & R2 & _).
  destruct (history_tally c ops e outs Hm Hck H) as [T1 _ _ _ _ _ _ _].
  unfold limit_order_fill_ratio, limit_order_cancellation_ratio, calls. rewrite <- C, <- D, <- T1. repeat split. lia.
Qed.
