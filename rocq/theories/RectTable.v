(** The library plays the abstract game of [RectTableSpec.v] on boards whose width divides their height. *)
From stdpp Require Import relations sorting.
From Verif Require Import MonadFacts Spec Game Builder BitsetFacts CoordFacts Struct Push Inv Remove Capture Bridge GameFacts RulesFacts KoFacts BoardFacts CheckFacts LegalFacts LegalsFacts ClaimFacts CaseFacts.
From Verif Require Import RectSpec RectReach RectCoord RectInv RectRemove RectCapture RectBridge RectGame RectReachFacts RectRules RectBoard RectCheck RectEye RectVerdict RectMoves RectKo RectLegal RectTableSpec TableFacts VerdictFacts.
From Coq Require Import Lia.

Local Notation length := Datatypes.length.

Lemma rsame_table_refl n t : rsame_table n t t.
Proof. split; try reflexivity; [intros p _; reflexivity|]. induction (t_seen t); constructor; [intros p _; reflexivity|assumption]. Qed.
Lemma rsame_table_sym n t u : rsame_table n t u -> rsame_table n u t.
Proof. intros []. split; try congruence; [apply rsame_pos_sym; assumption|]. apply Forall2_flip. eapply Forall2_impl; [eassumption|]. intros A B K. apply rsame_pos_sym. exact K. Qed.
Lemma rsame_table_trans n t u v : rsame_table n t u -> rsame_table n u v -> rsame_table n t v.
Proof.
  intros [] []. split; try congruence; [eapply rsame_pos_trans; eassumption|].
  eapply Forall2_transitive; [|eassumption|eassumption]. intros P Q R. apply rsame_pos_trans.
Qed.

Section Same.
  Context (n : size_t) (P Q : pos).
  Hypothesis H : rsame_pos n P Q.

  Lemma rsame_put p c : rsame_pos n (put P p c) (put Q p c).
  Proof using H. apply rput_ext, H. Qed.
  Lemma rsame_taken p c q : rtaken n (put P p c) p c q <-> rtaken n (put Q p c) p c q.
  Proof using H. split; apply rtaken_ext; [|apply rsame_pos_sym]; apply rsame_put. Qed.
  Lemma rsame_suicidal p c : rsuicidal n P p c <-> rsuicidal n Q p c.
  Proof using H.
    rewrite !rsuicidal_iff. setoid_rewrite rsame_taken. rewrite (rbreathes_ext n _ _ p (rsame_put p c)). reflexivity.
  Qed.
  Lemma rsame_captures p c : rcaptures n P p c <-> rcaptures n Q p c.
  Proof using H. unfold rcaptures. setoid_rewrite rsame_taken. reflexivity. Qed.
  Lemma rsame_captures_only p c q : rcaptures_only n P p c q <-> rcaptures_only n Q p c q.
  Proof using H. unfold rcaptures_only. setoid_rewrite rsame_taken. reflexivity. Qed.
  Lemma rsame_shape p : rko_shape n P p <-> rko_shape n Q p.
  Proof using H.
    pose proof (rsame_pos_sym _ _ _ H) as H'. unfold rko_shape. split; intros K t Ht Ha E L t' C.
    - apply (K t Ht Ha); [rewrite (H t Ht); exact E| |eapply rconnected_ext; eassumption]. intros l Hl. apply L. eapply rliberty_ext; eassumption.
    - apply (K t Ht Ha); [rewrite <- (H t Ht); exact E| |eapply rconnected_ext; eassumption]. intros l Hl. apply L. eapply rliberty_ext; eassumption.
  Qed.
  Lemma rsame_count c : rcount n P c = rcount n Q c.
  Proof using H. apply rcount_ext, H. Qed.
End Same.

Lemma safe_same n P Q c p d : rsame_pos n P Q -> rsafe_corner n P c p d <-> rsafe_corner n Q c p d.
Proof. intros H. split; intros K q Hq Hc; specialize (K q Hq Hc); [rewrite <- (H q Hq)|rewrite (H q Hq)]; exact K. Qed.
Lemma rsafes_same n P Q c p k : rsame_pos n P Q -> rsafe_corners n P c p k -> rsafe_corners n Q c p k.
Proof. intros H (l & Nd & L & K). exists l. split; [exact Nd|]. split; [exact L|]. intros d. rewrite K, (safe_same n P Q c p d H). reflexivity. Qed.
Lemma rattacked_same n P Q c q : rsame_pos n P Q -> rattacked n P c q -> rattacked n Q c q.
Proof. intros H (r & Hr & Ha & E). exists r. rewrite <- (H r Hr). auto. Qed.
Lemma rhole_same n P Q p d q : rsame_pos n P Q -> rhole n P p d q -> rhole n Q p d q.
Proof. intros H (Hq & Hc & E). unfold rhole. rewrite <- (H q Hq). auto. Qed.

Lemma reye_same_half n P Q c p : rsame_pos n P Q -> ron n p -> reye_shape n P c p -> reye_shape n Q c p.
Proof.
  intros H Hp (He & Hnb & HC). pose proof (rsame_pos_sym _ _ _ H) as H'. split; [rewrite <- (H p Hp); exact He|]. split.
  { intros q Hq Ha. rewrite <- (H q Hq). apply Hnb; assumption. }
  destruct HC as [H4|[H23 (i & d & q & Hi & Hh & Hat & Hs & Hall)]]; [left; eapply rsafes_same; eassumption|right]. split.
  { destruct H23 as [K|K]; [left|right]; eapply rsafes_same; eassumption. }
  exists i, d, q. split; [exact Hi|]. split; [eapply rhole_same; eassumption|]. split; [intros K; apply Hat; eapply rattacked_same; eassumption|]. split.
  { destruct Hs as [K|K]; [left|right]; eapply rsafes_same; eassumption. }
  intros j d' q' Hj Hd' Hq' K. apply (Hall j d' q' Hj Hd'); [eapply rhole_same; eassumption|eapply rattacked_same; eassumption].
Qed.
Lemma reye_same n P Q c p : rsame_pos n P Q -> ron n p -> reye_shape n P c p <-> reye_shape n Q c p.
Proof. intros H Hp. split; apply reye_same_half; try assumption. apply rsame_pos_sym, H. Qed.

Lemma rseen_same n (R R' : pos) l l' : Forall2 (rsame_pos n) l l' -> rsame_pos n R R' ->
  (exists Q, Q ∈ l /\ rsame_pos n R Q) -> exists Q, Q ∈ l' /\ rsame_pos n R' Q.
Proof.
  intros F HR (Q & HQ & HS). apply elem_of_list_lookup in HQ as (i & Hi).
  destruct (Forall2_lookup_l _ _ _ _ _ F Hi) as (Q' & Hi' & HQQ'). exists Q'. split; [eapply elem_of_list_lookup_2; eassumption|].
  eapply rsame_pos_trans; [apply rsame_pos_sym, HR|]. eapply rsame_pos_trans; eassumption.
Qed.

Lemma rseen_iff n (R R' : pos) l l' : Forall2 (rsame_pos n) l l' -> rsame_pos n R R' ->
  (exists Q, Q ∈ l /\ rsame_pos n R Q) <-> exists Q, Q ∈ l' /\ rsame_pos n R' Q.
Proof.
  intros F HR. split; apply rseen_same; try assumption; [|apply rsame_pos_sym, HR].
  apply Forall2_flip. eapply Forall2_impl; [eassumption|]. intros A B K. apply rsame_pos_sym. exact K.
Qed.

Section Det.
  Context (n : size_t).
  Hypothesis Hn : fits n.

  Lemma rsame_reasons f t u p : rsame_table n t u -> ron n p ->
    Forall2 (fun a b : play_error * Prop => fst a = fst b /\ (snd a <-> snd b)) (rreasons n f t p) (rreasons n f u p).
  Proof using Hn.
    intros HST Hp. pose proof HST as [HP HT Hps _ _ HK HS].
    assert (Hko : rko_banned n t p <-> rko_banned n u p).
    { pose proof (rsame_shape n (t_pos t) (t_pos u) HP p) as K. unfold rko_shape in K. unfold rko_banned. rewrite HK, K. reflexivity. }
    assert (Hsk : rsuperko_banned n t p <-> rsuperko_banned n u p).
    { unfold rsuperko_banned. rewrite (Forall2_length _ _ _ HS), HT, (rsame_captures n (t_pos t) (t_pos u) HP p (t_turn u)), Hko.
      assert (KR : forall t u, rsame_table n t u -> rrepeats_seen n t p -> rrepeats_seen n u p).
      { clear -Hp Hn. intros t u [HP HT _ _ _ _ HS] (R & Q & HM & HQ & HR). destruct (rgo_move_exists false n (t_pos u) p (t_turn u) Hn Hp) as [R' HM'].
        rewrite HT in HM. pose proof (rgo_move_det _ _ _ _ _ _ _ _ HP HM HM') as HRR.
        destruct (proj1 (rseen_iff n R R' _ _ HS HRR)) as (Q' & HQ' & HS'); [eauto|]. exists R', Q'. auto. }
      assert (Hrep : rrepeats_seen n t p <-> rrepeats_seen n u p).
      { split; apply KR; [exact HST|apply rsame_table_sym, HST]. }
      rewrite Hrep. reflexivity. }
    unfold rreasons, rpoint_reasons. repeat (apply Forall2_cons; split; [cbn [fst snd]; split; [reflexivity|]|]); [| | | | | |apply Forall2_nil_2].
    - rewrite Hps. reflexivity.
    - rewrite (HP p Hp). reflexivity.
    - rewrite HT, (rsame_suicidal n (t_pos t) (t_pos u) HP p (t_turn u)). reflexivity.
    - rewrite Hko. reflexivity.
    - rewrite HT, (reye_same n (t_pos t) (t_pos u) (t_turn u) p HP Hp). reflexivity.
    - rewrite Hsk. reflexivity.
  Qed.

  Lemma rruling_det f t u m v v' : rsame_table n t u -> rruling n f t m v -> rruling n f u m v' -> v = v'.
  Proof using Hn.
    intros HS. destruct m as [|c|x y]; cbn [rruling].
    - rewrite (rsa_passes _ _ _ HS). apply first_reason_unique.
    - rewrite (rsa_passes _ _ _ HS). apply first_reason_unique.
    - intros [Hp HJ] [_ HJ']. apply (first_reason_unique (rreasons n f u (x, y))); [|exact HJ'].
      eapply first_reason_ext; [apply rsame_reasons; eassumption|exact HJ].
  Qed.

  Lemma rstone_det f t u p t' u' : ron n p -> rsame_table n t u -> rstone_step n f t p t' -> rstone_step n f u p u' -> rsame_table n t' u'.
  Proof using Hn.
    intros Hp [HP HT Hps HO HPR HK HS] [A1 A2 A3 A4 A5 A6 A7 A8] [B1 B2 B3 B4 B5 B6 B7 B8].
    assert (HP' : rsame_pos n (t_pos t') (t_pos u')).
    { rewrite HT in A1. exact (rgo_move_det _ _ _ _ _ _ _ _ HP A1 B1). }
    pose proof (fun c => rsame_count n _ _ HP' c) as HC'. pose proof (fun c => rsame_count n _ _ (rsame_put n _ _ HP p (t_turn u)) c) as HC.
    split; [exact HP'|congruence|congruence|congruence| | |].
    - rewrite HT, HPR, HC, HC' in A5. rewrite HT, HPR, HC, HC' in A6. destruct (t_prisoners t') as [a1 a2], (t_prisoners u') as [b1 b2]. cbn [fst snd] in *. f_equal; lia.
    - assert (K : forall q, t_ko t' = Some q <-> t_ko u' = Some q).
      { intros q. rewrite A7, B7, HT. apply rsame_captures_only; assumption. }
      destruct (t_ko t') as [q|]; [symmetry; apply K; reflexivity|]. destruct (t_ko u') as [q|]; [apply K; reflexivity|reflexivity].
    - pose proof (rseen_iff n (t_pos t) (t_pos u) _ _ HS HP) as K.
      destruct A8 as [[A8 ->]|[A8 ->]], B8 as [[B8 ->]|[B8 ->]]; [exact HS|exfalso; apply B8, K, A8|exfalso; apply A8, K, B8|].
      apply Forall2_app; [exact HS|]. apply Forall2_cons. split; [exact HP|apply Forall2_nil_2].
  Qed.

  Lemma rmove_det f t u m t' u' : rsame_table n t u -> rmove_step n f t m t' -> rmove_step n f u m u' -> rsame_table n t' u'.
  Proof using Hn.
    intros HS H1 H2. destruct H1 as [x y t' Hp _ H1|_|c]; inversion H2; subst.
    - eapply rstone_det; eassumption.
    - destruct HS. split; cbn; try congruence; assumption.
    - destruct HS. split; cbn; try congruence; assumption.
  Qed.

  Lemma rcall_det f t u o a a' t' u' : rsame_table n t u -> rcall_step n f t o a t' -> rcall_step n f u o a' u' -> a = a' /\ rsame_table n t' u'.
  Proof using Hn.
    intros HS H1 H2. destruct H1 as [m t' H1|m t' HR H1|m e HR| |k|pts Q Nd He HQ]; inversion H2; subst.
    - split; [reflexivity|]. eapply rmove_det; eassumption.
    - split; [reflexivity|]. eapply rmove_det; eassumption.
    - exfalso. match goal with K : rruling n f ?x m (Refused _), HS : rsame_table n t ?x |- _ => pose proof (rruling_det f t x m _ _ HS HR K) as F end. discriminate F.
    - exfalso. match goal with K : rruling n f ?x m Accepted, HS : rsame_table n t ?x |- _ => pose proof (rruling_det f t x m _ _ HS HR K) as F end. discriminate F.
    - match goal with K : rruling n f ?x m (Refused _), HS : rsame_table n t ?x |- _ => pose proof (rruling_det f t x m _ _ HS HR K) as F end. rewrite F. split; [reflexivity|exact HS].
    - split; [reflexivity|]. destruct HS. split; cbn; try congruence; assumption.
    - split; [reflexivity|exact HS].
    - split; [reflexivity|]. destruct HS. split; cbn; try congruence; try assumption.
      intros p Hp. match goal with K : forall p, ron n p -> Q0 p = _ |- _ => rewrite (HQ p Hp), (K p Hp) end. destruct (decide (p ∈ pts)); [reflexivity|auto].
  Qed.

  Theorem rrun_det f ops : forall t u l l' t' u', rsame_table n t u -> rtable_run n f t ops l t' -> rtable_run n f u ops l' u' -> l = l' /\ rsame_table n t' u'.
  Proof using Hn.
    induction ops as [|o ops IH]; intros t u l l' t' u' HS H1 H2; inversion H1; inversion H2; subst; [auto|].
    match goal with A : rcall_step n f t o ?a ?t1, B : rcall_step n f u o ?b ?u1 |- _ => destruct (rcall_det f t u o a b t1 u1 HS A B) as [-> HS'] end.
    match goal with A : rtable_run n f ?t1 ops ?la t', B : rtable_run n f ?u1 ops ?lb u' |- _ => destruct (IH t1 u1 la lb t' u' HS' A B) as [-> HS2] end.
    auto.
  Qed.
End Det.

(** ** The library follows it *)

Lemma rstone_sim dbg n b w g x y : Nat.divide (snd n) (fst n) -> rgreach dbg n b w g -> ron n (x, y) -> position g (x, y) = None -> (N.of_nat (b + w) < 65535)%N ->
  exists g', play dbg g (MPlay x y) = Ok g' /\ gm_rule g' = gm_rule g /\ rstone_step n (flag_illegal (gm_rule g)) (table_of g) (x, y) (table_of g') /\
    rgreach dbg n (fst (bump_count (gm_turn g) (b, w))) (snd (bump_count (gm_turn g) (b, w))) g'.
Proof.
  intros Hd HG Hp He L. pose proof (rgreach_inv _ _ _ _ _ Hd HG) as G. pose proof (rgi_chains _ _ _ _ G) as LC.
  destruct (rplay_spec dbg n b w g x y G Hp He) as [[_ [F _]]|(g' & E & G' & HM & _ & A1 & A2 & A3 & A4 & _ & A5 & A6)]; [lia|].
  exists g'. split; [exact E|]. split; [exact A4|]. split; [|econstructor; eassumption].
  rewrite suicide_bit in HM. pose proof (rgi_black _ _ _ _ G) as B1. pose proof (rgi_white _ _ _ _ G) as B2. pose proof (rgi_black _ _ _ _ G') as B3. pose proof (rgi_white _ _ _ _ G') as B4.
  pose proof (fun c => rcount_put n (position g) (x, y) (gm_turn g) c Hp He) as CP.
  change (pos_of (gm_goban g)) with (position g) in *. change (pos_of (gm_goban g')) with (position g') in *.
  split; cbn [t_pos t_turn t_passes t_outcome t_prisoners t_ko t_seen table_of].
  - exact HM.
  - exact A3.
  - exact A1.
  - exact A2.
  - rewrite CP. destruct (gm_turn g); cbn [bump_count fst snd] in *; destruct (decide _) as [F|F]; try discriminate F; try (contradict F; reflexivity); lia.
  - rewrite CP. destruct (gm_turn g); cbn [bump_count fst snd] in *; destruct (decide _) as [F|F]; try discriminate F; try (contradict F; reflexivity); lia.
  - exact A6.
  - destruct (rhistory_insert_spec n _ _ (rgi_hist _ _ _ _ G) (rgi_wf _ _ _ _ G)) as (h' & Eh & _ & Hh). rewrite Eh in A5. injection A5 as A5. subst h'.
    assert (K : (exists y, y ∈ gm_history g /\ rsame_pos n (pos_of (gm_goban g)) (pos_of y)) <->
                (exists Q, Q ∈ List.map pos_of (gm_history g) /\ rsame_pos n (position g) Q)).
    { split.
      - intros (z & Hz & HS). exists (pos_of z). split; [apply in_seen; eauto|exact HS].
      - intros (Q & HQ & HS). apply in_seen in HQ as (z & -> & Hz). eauto. }
    rewrite K in Hh. destruct Hh as [[Hh ->]|[Hh ->]]; [left|right]; (split; [exact Hh|]); [reflexivity|apply map_app].
Qed.

(** moves that can be carried out without checking *)
Definition rpossible (n : size_t) (t : table) (m : move) : Prop :=
  match m with
  | MPlay x y => ron n (x, y) /\ t_pos t (x, y) = None
  | MPass => (t_passes t < 2)%nat
  | MResign _ => True
  end.
Lemma rmove_possible n f t m t' : rmove_step n f t m t' -> rpossible n t m.
Proof. destruct 1; cbn; auto. Qed.

Lemma rmove_sim dbg n b w g m : Nat.divide (snd n) (fst n) -> rgreach dbg n b w g -> rpossible n (table_of g) m -> (N.of_nat (b + w + stones_of (OPlay m)) <= 65535)%N ->
  exists g' b' w', play dbg g m = Ok g' /\ gm_rule g' = gm_rule g /\ rmove_step n (flag_illegal (gm_rule g)) (table_of g) m (table_of g') /\
    rgreach dbg n b' w' g' /\ (b' + w' <= b + w + stones_of (OPlay m))%nat.
Proof.
  intros Hd HG. destruct m as [|c|x y]; cbn [rpossible stones_of].
  - intros HP _. cbn [t_passes table_of] in HP. assert (E : (gm_passes g <? 2)%nat = true) by (apply Nat.ltb_lt, HP).
    eexists. exists b, w. split; [cbn [play]; rewrite E; reflexivity|]. split; [reflexivity|]. split; [|split; [|lia]].
    + exact (rmv_pass n _ (table_of g) HP).
    + eapply rg_pass; [exact HG|]. cbn [play]. rewrite E. reflexivity.
  - intros _ _. eexists. exists b, w. split; [reflexivity|]. split; [reflexivity|]. split; [|split; [|lia]].
    + exact (rmv_resign n _ (table_of g) c).
    + eapply rg_resign; [exact HG|reflexivity].
  - intros [Hp He] L. destruct (rstone_sim dbg n b w g x y Hd HG Hp He ltac:(lia)) as (g' & E & ER & HS & HG').
    eexists g', _, _. split; [exact E|]. split; [exact ER|]. split; [constructor; assumption|]. split; [exact HG'|]. rewrite bump_total. lia.
Qed.

Lemma rruled_moves dbg n b w g m : Nat.divide (snd n) (fst n) -> rgreach dbg n b w g -> (forall x y, m = MPlay x y -> ron n (x, y)) -> (N.of_nat (b + w + stones_of (OTry m)) <= 65535)%N ->
  exists g' v, try_play dbg g m = Ok (g', v) /\ rruling n (flag_illegal (gm_rule g)) (table_of g) m v /\
    match v with Accepted => play dbg g m = Ok g' /\ rpossible n (table_of g) m | Refused _ => g' = g end.
Proof.
  intros Hd HG Hm L. destruct (decide (exists x y, m = MPlay x y)) as [(x & y & ->)|Hns].
  - pose proof (rgreach_inv _ _ _ _ _ Hd HG) as G. pose proof (rgi_chains _ _ _ _ G) as LC. specialize (Hm x y eq_refl). cbn [stones_of] in L.
    destruct (rjudged_ok dbg n b w g x y Hd HG Hm) as [[_ F]|(g' & v & E & HJ)]; [unfold no_slot_left in F; lia|].
    exists g', v. split; [exact E|]. split; [split; [exact Hm|exact HJ]|]. destruct v as [|e]; [|eapply refused_unchanged; exact E].
    unfold try_play in E. destruct (gm_passes g =? 2)%nat; [discriminate|]. apply bind_ok in E as (c & Ec & E).
    destruct (negb (mcolor_eqb c None)); [discriminate|]. apply bind_ok in E as (e & Ee & E). destruct e as [e|]; [discriminate|].
    apply bind_ok in E as (g2 & E2 & E). injection E as <-. split; [exact E2|]. split; [exact Hm|].
    apply Forall_cons in HJ as [_ HJ]. apply Forall_cons in HJ as [HJ _]. cbn [snd fst t_pos table_of] in *.
    destruct (position g (x, y)); [exfalso; apply HJ; discriminate|reflexivity].
  - assert (K : rruling n (flag_illegal (gm_rule g)) (table_of g) m = first_reason [(EGamePaused, gm_passes g = 2%nat)]).
    { destruct m; try reflexivity. exfalso. apply Hns. eauto. }
    rewrite K. destruct (decide (gm_passes g = 2%nat)) as [HP|HP].
    + exists g, (Refused EGamePaused). split; [apply paused_refuses, HP|]. split; [apply first_reason_hit, HP|reflexivity].
    + assert (HPm : rpossible n (table_of g) m).
      { pose proof (rgi_passes _ _ _ _ (rgreach_inv _ _ _ _ _ Hd HG)) as LP. destruct m; cbn [rpossible t_passes table_of]; [lia|exact Logic.I|]. exfalso. apply Hns. eauto. }
      destruct (rmove_sim dbg n b w g m Hd HG HPm) as (g' & b' & w' & E & _); [exact L|].
      exists g', Accepted. split; [|split; [apply first_reason_skip; [exact HP|constructor]|auto]].
      unfold try_play. destruct (Nat.eqb_spec (gm_passes g) 2) as [|_]; [contradiction|].
      destruct m; [rewrite E; reflexivity|rewrite E; reflexivity|exfalso; apply Hns; eauto].
Qed.

(** calls that the abstract game can answer *)
Definition ranswerable (n : size_t) (t : table) (o : op) : Prop :=
  match o with
  | OPlay m => rpossible n t m
  | OTry (MPlay x y) => ron n (x, y)
  | OHandicap pts => NoDup pts /\ forall p, p ∈ pts -> ron n p /\ t_pos t p = None
  | _ => True
  end.
Lemma rcall_answerable n f t o a t' : rcall_step n f t o a t' -> ranswerable n t o.
Proof.
  destruct 1 as [m t' H|m t' HR H|m e HR| | |pts Q Nd He HQ]; cbn [ranswerable]; auto.
  - eapply rmove_possible, H.
  - destruct m; auto. apply HR.
  - destruct m; auto. apply HR.
Qed.

Lemma rcall_sim dbg n b w g o : Nat.divide (snd n) (fst n) -> rgreach dbg n b w g -> ranswerable n (table_of g) o -> (N.of_nat (b + w + stones_of o) <= 65535)%N ->
  exists g' a b' w', call dbg g o = Ok (g', a) /\ flag_illegal (gm_rule g') = flag_illegal (gm_rule g) /\
    rcall_step n (flag_illegal (gm_rule g)) (table_of g) o a (table_of g') /\ rgreach dbg n b' w' g' /\ (b' + w' <= b + w + stones_of o)%nat.
Proof.
  intros Hd HG. destruct o as [m|m| |k|pts]; cbn [ranswerable call].
  - intros HP L. destruct (rmove_sim dbg n b w g m Hd HG HP L) as (g' & b' & w' & E & ER & HS & HG' & HL). exists g', None, b', w'. rewrite E. cbn [bind].
    split; [reflexivity|]. split; [rewrite ER; reflexivity|]. split; [constructor; exact HS|auto].
  - intros HP L. destruct (rruled_moves dbg n b w g m Hd HG) as (g' & v & E & HR & HV); [intros x y ->; exact HP|exact L|].
    rewrite E. cbn [bind]. destruct v as [|e].
    + destruct HV as [E' HPm]. destruct (rmove_sim dbg n b w g m Hd HG HPm) as (g2 & b' & w' & E2 & ER & HS & HG' & HL); [exact L|].
      rewrite E' in E2. injection E2 as <-. exists g', (Some Accepted), b', w'. split; [reflexivity|]. split; [rewrite ER; reflexivity|]. split; [constructor; assumption|]. split; [exact HG'|]. exact HL.
    + subst g'. exists g, (Some (Refused e)), b, w. split; [reflexivity|]. split; [reflexivity|]. split; [constructor; exact HR|]. split; [exact HG|lia].
  - intros _ _. exists (resume g), None, b, w. split; [reflexivity|]. split; [reflexivity|]. split; [exact (rca_resume n _ (table_of g))|]. split; [constructor; exact HG|lia].
  - intros _ _. exists (set_komi g k), None, b, w. split; [reflexivity|]. split; [reflexivity|]. split; [exact (rca_komi n _ (table_of g) k)|]. split; [constructor; exact HG|lia].
  - intros [Nd He] L. cbn [stones_of] in *. pose proof (rgreach_inv _ _ _ _ _ Hd HG) as G. pose proof (rgi_chains _ _ _ _ G) as LC.
    assert (E : exists g', put_handicap dbg g pts = Ok g').
    { unfold put_handicap. rewrite fold_handicap. destruct (rpush_list_wf dbg n (List.map (fun p => (p, Black)) pts) (gm_goban g) (rgi_wf _ _ _ _ G)) as [[_ F]|(gb & E & _)].
      - assert (K : (List.map (fun p => (p, Black)) pts).*1 = pts) by (clear; induction pts as [|p l IH]; [reflexivity|]; cbn; f_equal; exact IH). rewrite K. exact Nd.
      - intros s Hs. apply elem_of_list_In, in_map_iff in Hs as (p & <- & Hp). apply He, elem_of_list_In, Hp.
      - exfalso. rewrite map_length in F. lia.
      - rewrite E. cbn [bind]. eauto. }
    destruct E as [g' E]. destruct (rginv_handicap dbg n b w g pts g' G Nd He E) as [_ HQ]. rewrite E. cbn [bind].
    exists g', None, (b + length pts)%nat, w. split; [reflexivity|].
    assert (ET : flag_illegal (gm_rule g') = flag_illegal (gm_rule g) /\ table_of g' = mkTable (position g') White (gm_passes g) (gm_outcome g) (gm_prisoners g) (gm_ko_point g) (List.map pos_of (gm_history g))).
    { unfold put_handicap in E. apply bind_ok in E as (gb & _ & E). injection E as <-. split; reflexivity. }
    destruct ET as [ER ET]. split; [exact ER|]. split; [rewrite ET; apply (rca_handicap n _ (table_of g)); assumption|]. split; [eapply rg_handicap; eassumption|lia].
Qed.

Theorem rcalls_sim dbg n ops : forall b w g, Nat.divide (snd n) (fst n) -> rgreach dbg n b w g -> (forall o, o ∈ ops -> rguarded n o) -> (N.of_nat (b + w + all_stones ops) <= 65535)%N ->
  exists g' l, calls dbg g ops = Ok (g', l) /\ rtable_run n (flag_illegal (gm_rule g)) (table_of g) ops l (table_of g').
Proof.
  induction ops as [|o ops IH]; intros b w g Hd HG Hg L; cbn [calls].
  { exists g, []. split; [reflexivity|constructor]. }
  unfold all_stones in *. change (list_sum (List.map stones_of (o :: ops))) with (stones_of o + list_sum (List.map stones_of ops))%nat in L.
  destruct (rcall_sim dbg n b w g o Hd HG) as (g1 & a & b1 & w1 & E & ER & HS & HG1 & HL).
  { specialize (Hg o (elem_of_list_here _ _)). destruct o as [|m| | |]; cbn [rguarded ranswerable] in *; try contradiction; auto. }
  { lia. }
  rewrite E. cbn [bind]. destruct (IH b1 w1 g1 Hd HG1) as (g2 & l & E2 & HR).
  { intros o' Ho. apply Hg. right. exact Ho. }
  { lia. }
  rewrite E2. cbn [bind]. exists g2, (a :: l). split; [reflexivity|]. rewrite ER in HR. econstructor; eassumption.
Qed.

Lemma ranswerable_same n t u o : rsame_table n t u -> ranswerable n u o -> ranswerable n t o.
Proof.
  intros [HP _ Hps _ _ _ _]. destruct o as [m|m| |k|pts]; cbn [ranswerable]; auto.
  - destruct m as [|c|x y]; cbn [rpossible]; [rewrite Hps; auto|auto|]. intros [Hp He]. split; [exact Hp|]. rewrite (HP _ Hp). exact He.
  - intros [Nd He]. split; [exact Nd|]. intros p Hp. destruct (He p Hp) as [Hon He']. split; [exact Hon|]. rewrite (HP _ Hon). exact He'.
Qed.

Theorem rcalls_follow dbg n f ops : forall b w g t l t', Nat.divide (snd n) (fst n) -> rgreach dbg n b w g -> flag_illegal (gm_rule g) = f -> rsame_table n (table_of g) t ->
  rtable_run n f t ops l t' -> (N.of_nat (b + w + all_stones ops) <= 65535)%N ->
  exists g', calls dbg g ops = Ok (g', l) /\ rsame_table n (table_of g') t'.
Proof.
  induction ops as [|o ops IH]; intros b w g t l t' Hd HG EF HST HR L; inversion HR as [|? ? a t1 ? l1 ? HC HR1]; subst; cbn [calls].
  { exists g. auto. }
  unfold all_stones in *. change (list_sum (List.map stones_of (o :: ops))) with (stones_of o + list_sum (List.map stones_of ops))%nat in L.
  destruct (rcall_sim dbg n b w g o Hd HG) as (g1 & a1 & b1 & w1 & E & ER & HS & HG1 & HL).
  { eapply ranswerable_same; [exact HST|]. eapply rcall_answerable. exact HC. }
  { lia. }
  destruct (rcall_det n (rwf_n _ _ (rgi_wf _ _ _ _ (rgreach_inv _ _ _ _ _ Hd HG))) _ _ _ _ _ _ _ _ HST HS HC) as [-> HST1].
  rewrite E. cbn [bind]. destruct (IH b1 w1 g1 t1 l1 t' Hd HG1 ER HST1 HR1) as (g2 & E2 & HST2); [lia|].
  rewrite E2. cbn [bind]. eauto.
Qed.

Lemma rstart_table dbg n s r g : Nat.divide (snd n) (fst n) -> (1 <= fst n)%nat -> (1 <= snd n)%nat -> size_of s = n -> game_new s r = Ok g ->
  rsame_table n (table_of g) start /\ rgreach dbg n 0 0 g.
Proof.
  intros Hd Hn Hn2 Hs E. pose proof (rg_new dbg n s r g Hn Hn2 Hs E) as HG. split; [|exact HG].
  unfold game_new in E. apply bind_ok in E as (gb & Eb & E). injection E as E. subst g.
  rewrite Hs in Eb. destruct (rnew_wf n (fits_new n Hd Hn Hn2 (ex_intro _ gb Eb))) as (gb' & Eb' & W & _ & Hc). rewrite Eb in Eb'. injection Eb' as <-.
  split; cbn [table_of start t_pos t_turn t_passes t_outcome t_prisoners t_ko t_seen gm_goban gm_turn gm_passes gm_outcome gm_prisoners gm_ko_point gm_history List.map]; try reflexivity; [|constructor].
  intros p Hp. exact (rpos_new n gb p W Hc Hp).
Qed.

(** whole games, from the start *)
Theorem rgame_follows dbg n s r g ops l t' : Nat.divide (snd n) (fst n) -> (1 <= fst n)%nat -> (1 <= snd n)%nat -> size_of s = n -> game_new s r = Ok g ->
  rtable_run n (flag_illegal r) start ops l t' -> (N.of_nat (all_stones ops) <= 65535)%N ->
  exists g', calls dbg g ops = Ok (g', l) /\ rsame_table n (table_of g') t'.
Proof.
  intros Hd Hn Hn2 Hs E HR L. destruct (rstart_table dbg n s r g Hd Hn Hn2 Hs E) as [HST HG].
  apply (rcalls_follow dbg n (flag_illegal r) ops 0 0 g start l t' Hd HG); auto.
  unfold game_new in E. apply bind_ok in E as (gb & _ & E). injection E as <-. reflexivity.
Qed.

(** ** Tables that agree can be continued alike *)

Section Transport.
  Context (n : size_t).
  Hypothesis Hn : fits n.

  Lemma rruling_same f t u m v : rsame_table n t u -> rruling n f t m v -> rruling n f u m v.
  Proof using Hn.
    intros HS. destruct m as [|c|x y]; cbn [rruling]; [rewrite (rsa_passes _ _ _ HS); auto|rewrite (rsa_passes _ _ _ HS); auto|].
    intros [Hp HJ]. split; [exact Hp|]. eapply first_reason_ext; [apply rsame_reasons; eassumption|exact HJ].
  Qed.

  Lemma rstone_same f t u p t' : ron n p -> rsame_table n t u -> rstone_step n f t p t' -> exists u', rstone_step n f u p u' /\ rsame_table n t' u'.
  Proof using Hn.
    intros Hp HST H. pose proof HST as [HP HT Hps HO HPR HK HS]. destruct H as [A1 A2 A3 A4 A5 A6 A7 A8].
    destruct (rgo_move_exists (negb (no_suicide f)) n (t_pos u) p (t_turn u) Hn Hp) as [R HM]. rewrite HT in A1.
    pose proof (rgo_move_det _ _ _ _ _ _ _ _ HP A1 HM) as HR.
    pose proof (rseen_iff n (t_pos t) (t_pos u) _ _ HS HP) as K.
    pose proof (fun c => rsame_count n _ _ HR c) as HC'. pose proof (fun c => rsame_count n _ _ (rsame_put n _ _ HP p (t_turn u)) c) as HC.
    assert (X : exists l, ((exists Q, Q ∈ t_seen u /\ rsame_pos n (t_pos u) Q) /\ l = t_seen u \/ (~ exists Q, Q ∈ t_seen u /\ rsame_pos n (t_pos u) Q) /\ l = t_seen u ++ [t_pos u]) /\
       Forall2 (rsame_pos n) (t_seen t') l).
    { destruct A8 as [[A8 ->]|[A8 ->]].
      - exists (t_seen u). split; [left; split; [apply K, A8|reflexivity]|exact HS].
      - exists (t_seen u ++ [t_pos u]). split; [right; split; [rewrite <- K; exact A8|reflexivity]|]. apply Forall2_app; [exact HS|]. apply Forall2_cons. split; [exact HP|apply Forall2_nil_2]. }
    destruct X as (l & Hl & HF).
    exists (mkTable R (t_turn t') (t_passes t') (t_outcome t') (t_prisoners t') (t_ko t') l). split; split; cbn [t_pos t_turn t_passes t_outcome t_prisoners t_ko t_seen]; try reflexivity; try assumption.
    - rewrite A2, HT. reflexivity.
    - rewrite A4. exact HO.
    - rewrite <- HC', A5, HPR, HT, HC. reflexivity.
    - rewrite <- HC', A6, HPR, HT, HC. reflexivity.
    - intros q. rewrite A7, HT. apply rsame_captures_only; assumption.
  Qed.

  Lemma rmove_same f t u m t' : rsame_table n t u -> rmove_step n f t m t' -> exists u', rmove_step n f u m u' /\ rsame_table n t' u'.
  Proof using Hn.
    intros HS H. destruct H as [x y t' Hp He H|HP|c].
    - destruct (rstone_same f t u (x, y) t' Hp HS H) as (u' & H' & HS'). exists u'. split; [|exact HS']. constructor; [exact Hp| |exact H']. rewrite <- (rsa_pos _ _ _ HS _ Hp). exact He.
    - eexists. split; [constructor; rewrite <- (rsa_passes _ _ _ HS); exact HP|]. destruct HS. split; cbn; try congruence; assumption.
    - eexists. split; [constructor|]. destruct HS. split; cbn; try congruence; assumption.
  Qed.

  Lemma rcall_same f t u o a t' : rsame_table n t u -> rcall_step n f t o a t' -> exists u', rcall_step n f u o a u' /\ rsame_table n t' u'.
  Proof using Hn.
    intros HS H. destruct H as [m t' H|m t' HR H|m e HR| |k|pts Q Nd He HQ].
    - destruct (rmove_same f t u m t' HS H) as (u' & H' & HS'). exists u'. split; [constructor; exact H'|exact HS'].
    - destruct (rmove_same f t u m t' HS H) as (u' & H' & HS'). exists u'. split; [constructor; [eapply rruling_same; eassumption|exact H']|exact HS'].
    - exists u. split; [constructor; eapply rruling_same; eassumption|exact HS].
    - eexists. split; [constructor|]. destruct HS. split; cbn; try congruence; assumption.
    - exists u. split; [constructor|exact HS].
    - eexists. split; [apply (rca_handicap n f u pts Q Nd)|].
      + intros p Hp. destruct (He p Hp) as [Hon E]. split; [exact Hon|]. rewrite <- (rsa_pos _ _ _ HS _ Hon). exact E.
      + intros p Hp. rewrite (HQ p Hp), (rsa_pos _ _ _ HS _ Hp). reflexivity.
      + destruct HS. split; cbn; try congruence; try assumption.
  Qed.

  Theorem rrun_same f ops : forall t u l t', rsame_table n t u -> rtable_run n f t ops l t' -> exists u', rtable_run n f u ops l u' /\ rsame_table n t' u'.
  Proof using Hn.
    induction ops as [|o ops IH]; intros t u l t' HS H; inversion H as [|? ? a t1 ? l1 ? HC HR1]; subst.
    - exists u. split; [constructor|exact HS].
    - destruct (rcall_same f t u o a t1 HS HC) as (u1 & HC1 & HS1). destruct (IH t1 u1 l1 t' HS1 HR1) as (u' & HR & HS'). exists u'. split; [econstructor; eassumption|exact HS'].
  Qed.
End Transport.

(** guarded calls from the start of a game: the abstract game goes on for ever and the library answers alike *)
Theorem rgame_guarded dbg n s r ops : Nat.divide (snd n) (fst n) -> (1 <= fst n <= 19)%nat -> (1 <= snd n)%nat -> size_of s = n -> (forall o, o ∈ ops -> rguarded n o) -> (N.of_nat (all_stones ops) <= 65535)%N ->
  exists g g' l t', game_new s r = Ok g /\ calls dbg g ops = Ok (g', l) /\ rtable_run n (flag_illegal r) start ops l t' /\ rsame_table n (table_of g') t'.
Proof.
  intros Hd Hn Hn2 Hs Hg L. assert (F : fits n) by (split; [exact Hn|split; [exact Hn2|destruct Hd as [k Hk]; eauto]]). destruct (rnew_wf n F) as (gb & Eb & _). assert (E : exists g, game_new s r = Ok g) by (unfold game_new; rewrite Hs, Eb; cbn; eauto).
  destruct E as [g E]. assert (ER : gm_rule g = r) by (unfold game_new in E; apply bind_ok in E as (? & _ & E); injection E as <-; reflexivity).
  destruct (rstart_table dbg n s r g Hd ltac:(lia) Hn2 Hs E) as [HST HG].
  destruct (rcalls_sim dbg n ops 0 0 g Hd HG Hg L) as (g' & l & EC & HR). rewrite ER in HR.
  destruct (rrun_same n F _ _ _ _ _ _ HST HR) as (u' & HR' & HS'). exists g, g', l, u'. auto.
Qed.
