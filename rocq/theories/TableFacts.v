(** The library plays the abstract game of [TableSpec.v]. *)
From stdpp Require Import relations sorting.
From Verif Require Import TableSpec PlayoutSpec SymSpec.
From Verif Require Import MonadFacts Struct Push Inv Bridge GameFacts RulesFacts KoFacts BoardFacts CheckFacts EyeFacts EyeExact LegalFacts LegalsFacts ClaimFacts VerdictFacts SymGame.
From Coq Require Import Lia.

Local Notation length := Datatypes.length.

(** ** The abstract game is deterministic *)

Lemma same_pos_sym n P Q : same_pos n P Q -> same_pos n Q P.
Proof. intros H p Hp. symmetry. apply H, Hp. Qed.
Lemma same_pos_trans n P Q R : same_pos n P Q -> same_pos n Q R -> same_pos n P R.
Proof. intros H H' p Hp. rewrite (H p Hp). apply H', Hp. Qed.

Lemma same_table_refl n t : same_table n t t.
Proof. split; try reflexivity; [intros p _; reflexivity|]. induction (t_seen t); constructor; [intros p _; reflexivity|assumption]. Qed.
Lemma same_table_sym n t u : same_table n t u -> same_table n u t.
Proof. intros []. split; try congruence; [apply same_pos_sym; assumption|]. apply Forall2_flip. eapply Forall2_impl; [eassumption|]. intros A B K. apply same_pos_sym. exact K. Qed.
Lemma same_table_trans n t u v : same_table n t u -> same_table n u v -> same_table n t v.
Proof.
  intros [] []. split; try congruence; [eapply same_pos_trans; eassumption|].
  eapply Forall2_transitive; [|eassumption|eassumption]. intros P Q R. apply same_pos_trans.
Qed.

Lemma id_sym n : board_sym n (fun p => p) (fun p => p) (fun c => c).
Proof. split; auto. Qed.
Lemma id_image n P Q : same_pos n P Q -> image n (fun p => p) (fun c => c) P Q.
Proof. intros H p Hp. rewrite <- (H p Hp). destruct (P p); reflexivity. Qed.

Section Same.
  Context (n : nat).
  Hypothesis Hn : (n <= 19)%nat.
  Context (P Q : pos).
  Hypothesis H : same_pos n P Q.
  Let I := id_image n P Q H.
  Let S := id_sym n.

  Lemma same_suicidal p c : on n p -> suicidal n P p c <-> suicidal n Q p c.
  Proof using Hn H. apply (suicidal_iff n _ _ _ S P Q p c Hn I). Qed.
  Lemma same_captures p c : on n p -> captures n P p c <-> captures n Q p c.
  Proof using H. apply (captures_iff n _ _ _ S P Q p c I). Qed.
  Lemma same_captures_only p c q : on n p -> captures_only n P p c q <-> captures_only n Q p c q.
  Proof using H.
    intros Hp. assert (K : on n q -> captures_only n P p c q <-> captures_only n Q p c q) by apply (captures_only_iff n _ _ _ S P Q p c q I Hp).
    split; intros HC; apply K; try exact HC; apply HC.
  Qed.
  Lemma same_shape p : on n p -> ko_shape n P p <-> ko_shape n Q p.
  Proof using H. apply (ko_shape_iff n _ _ _ P Q p S I). Qed.
  Lemma same_count c : count n P c = count n Q c.
  Proof using H. symmetry. apply (count_image n _ _ _ S P Q c I). Qed.
  Lemma same_put p c : on n p -> same_pos n (put P p c) (put Q p c).
  Proof using H. intros Hp q Hq. unfold put. destruct (decide (q = p)); [reflexivity|apply H, Hq]. Qed.
End Same.

Lemma safe_same n P Q c p d : same_pos n P Q -> safe_corner n P c p d <-> safe_corner n Q c p d.
Proof. intros H. split; intros K q Hq Hc; specialize (K q Hq Hc); [rewrite <- (H q Hq)|rewrite (H q Hq)]; exact K. Qed.
Lemma safes_same n P Q c p k : same_pos n P Q -> safe_corners n P c p k -> safe_corners n Q c p k.
Proof. intros H (l & Nd & L & K). exists l. split; [exact Nd|]. split; [exact L|]. intros d. rewrite K, (safe_same n P Q c p d H). reflexivity. Qed.
Lemma attacked_same n P Q c q : same_pos n P Q -> attacked n P c q -> attacked n Q c q.
Proof. intros H (r & Hr & Ha & E). exists r. rewrite <- (H r Hr). auto. Qed.
Lemma hole_same n P Q p d q : same_pos n P Q -> hole n P p d q -> hole n Q p d q.
Proof. intros H (Hq & Hc & E). unfold hole. rewrite <- (H q Hq). auto. Qed.

Lemma eye_same_half n P Q c p : same_pos n P Q -> on n p -> eye_shape n P c p -> eye_shape n Q c p.
Proof.
  intros H Hp (He & Hnb & HC). pose proof (same_pos_sym _ _ _ H) as H'. split; [rewrite <- (H p Hp); exact He|]. split.
  { intros q Hq Ha. rewrite <- (H q Hq). apply Hnb; assumption. }
  destruct HC as [H4|[H23 (i & d & q & Hi & Hh & Hat & Hs & Hall)]]; [left; eapply safes_same; eassumption|right]. split.
  { destruct H23 as [K|K]; [left|right]; eapply safes_same; eassumption. }
  exists i, d, q. split; [exact Hi|]. split; [eapply hole_same; eassumption|]. split; [intros K; apply Hat; eapply attacked_same; eassumption|]. split.
  { destruct Hs as [K|K]; [left|right]; eapply safes_same; eassumption. }
  intros j d' q' Hj Hd' Hq' K. apply (Hall j d' q' Hj Hd'); [eapply hole_same; eassumption|eapply attacked_same; eassumption].
Qed.
Lemma eye_same n P Q c p : same_pos n P Q -> on n p -> eye_shape n P c p <-> eye_shape n Q c p.
Proof. intros H Hp. split; apply eye_same_half; try assumption. apply same_pos_sym, H. Qed.

Lemma seen_same n (R R' : pos) l l' : Forall2 (same_pos n) l l' -> same_pos n R R' ->
  (exists Q, Q ∈ l /\ same_pos n R Q) -> exists Q, Q ∈ l' /\ same_pos n R' Q.
Proof.
  intros F HR (Q & HQ & HS). apply elem_of_list_lookup in HQ as (i & Hi).
  destruct (Forall2_lookup_l _ _ _ _ _ F Hi) as (Q' & Hi' & HQQ'). exists Q'. split; [eapply elem_of_list_lookup_2; eassumption|].
  eapply same_pos_trans; [apply same_pos_sym, HR|]. eapply same_pos_trans; eassumption.
Qed.

Lemma seen_iff n (R R' : pos) l l' : Forall2 (same_pos n) l l' -> same_pos n R R' ->
  (exists Q, Q ∈ l /\ same_pos n R Q) <-> exists Q, Q ∈ l' /\ same_pos n R' Q.
Proof.
  intros F HR. split; apply seen_same; try assumption; [|apply same_pos_sym, HR].
  apply Forall2_flip. eapply Forall2_impl; [eassumption|]. intros A B K. apply same_pos_sym. exact K.
Qed.

Section Det.
  Context (n : nat).
  Hypothesis Hn : (n <= 19)%nat.

  Lemma same_reasons f t u p : same_table n t u -> on n p ->
    Forall2 (fun a b : play_error * Prop => fst a = fst b /\ (snd a <-> snd b)) (reasons n f t p) (reasons n f u p).
  Proof using Hn.
    intros HST Hp. pose proof HST as [HP HT Hps _ _ HK HS].
    assert (Hko : ko_banned n t p <-> ko_banned n u p).
    { pose proof (same_shape n (t_pos t) (t_pos u) HP p Hp) as K. unfold ko_shape in K. unfold ko_banned. rewrite HK, K. reflexivity. }
    assert (Hsk : superko_banned n t p <-> superko_banned n u p).
    { unfold superko_banned. rewrite (Forall2_length _ _ _ HS), HT, (same_captures n (t_pos t) (t_pos u) HP p (t_turn u) Hp), Hko.
      assert (KR : forall t u, same_table n t u -> repeats_seen n t p -> repeats_seen n u p).
      { clear -Hp Hn. intros t u [HP HT _ _ _ _ HS] (R & Q & HM & HQ & HR). destruct (go_move_exists false n (t_pos u) p (t_turn u) Hn Hp) as [R' HM'].
        rewrite HT in HM. pose proof (go_move_det _ _ _ _ _ _ _ _ HP HM HM') as HRR.
        destruct (proj1 (seen_iff n R R' _ _ HS HRR)) as (Q' & HQ' & HS'); [eauto|]. exists R', Q'. auto. }
      assert (Hrep : repeats_seen n t p <-> repeats_seen n u p).
      { split; apply KR; [exact HST|apply same_table_sym, HST]. }
      rewrite Hrep. reflexivity. }
    unfold reasons, point_reasons. repeat (apply Forall2_cons; split; [cbn [fst snd]; split; [reflexivity|]|]); [| | | | | |apply Forall2_nil_2].
    - rewrite Hps. reflexivity.
    - rewrite (HP p Hp). reflexivity.
    - rewrite HT, (same_suicidal n Hn (t_pos t) (t_pos u) HP p (t_turn u) Hp). reflexivity.
    - rewrite Hko. reflexivity.
    - rewrite HT, (eye_same n (t_pos t) (t_pos u) (t_turn u) p HP Hp). reflexivity.
    - rewrite Hsk. reflexivity.
  Qed.

  Lemma ruling_det f t u m v v' : same_table n t u -> ruling n f t m v -> ruling n f u m v' -> v = v'.
  Proof using Hn.
    intros HS. destruct m as [|c|x y]; cbn [ruling].
    - rewrite (sa_passes _ _ _ HS). apply first_reason_unique.
    - rewrite (sa_passes _ _ _ HS). apply first_reason_unique.
    - intros [Hp HJ] [_ HJ']. apply (first_reason_unique (reasons n f u (x, y))); [|exact HJ'].
      eapply first_reason_ext; [apply same_reasons; eassumption|exact HJ].
  Qed.

  Lemma stone_det f t u p t' u' : on n p -> same_table n t u -> stone_step n f t p t' -> stone_step n f u p u' -> same_table n t' u'.
  Proof using Hn.
    intros Hp [HP HT Hps HO HPR HK HS] [A1 A2 A3 A4 A5 A6 A7 A8] [B1 B2 B3 B4 B5 B6 B7 B8].
    assert (HP' : same_pos n (t_pos t') (t_pos u')).
    { rewrite HT in A1. exact (go_move_det _ _ _ _ _ _ _ _ HP A1 B1). }
    pose proof (fun c => same_count n _ _ HP' c) as HC'. pose proof (fun c => same_count n _ _ (same_put n _ _ HP p (t_turn u) Hp) c) as HC.
    split; [exact HP'|congruence|congruence|congruence| | |].
    - rewrite HT, HPR, HC, HC' in A5. rewrite HT, HPR, HC, HC' in A6. destruct (t_prisoners t') as [a1 a2], (t_prisoners u') as [b1 b2]. cbn [fst snd] in *. f_equal; lia.
    - assert (K : forall q, t_ko t' = Some q <-> t_ko u' = Some q).
      { intros q. rewrite A7, B7, HT. apply same_captures_only; assumption. }
      destruct (t_ko t') as [q|]; [symmetry; apply K; reflexivity|]. destruct (t_ko u') as [q|]; [apply K; reflexivity|reflexivity].
    - pose proof (seen_iff n (t_pos t) (t_pos u) _ _ HS HP) as K.
      destruct A8 as [[A8 ->]|[A8 ->]], B8 as [[B8 ->]|[B8 ->]]; [exact HS|exfalso; apply B8, K, A8|exfalso; apply A8, K, B8|].
      apply Forall2_app; [exact HS|]. apply Forall2_cons. split; [exact HP|apply Forall2_nil_2].
  Qed.

  Lemma move_det f t u m t' u' : same_table n t u -> move_step n f t m t' -> move_step n f u m u' -> same_table n t' u'.
  Proof using Hn.
    intros HS H1 H2. destruct H1 as [x y t' Hp _ H1|_|c]; inversion H2; subst.
    - eapply stone_det; eassumption.
    - destruct HS. split; cbn; try congruence; assumption.
    - destruct HS. split; cbn; try congruence; assumption.
  Qed.

  Lemma call_det f t u o a a' t' u' : same_table n t u -> call_step n f t o a t' -> call_step n f u o a' u' -> a = a' /\ same_table n t' u'.
  Proof using Hn.
    intros HS H1 H2. destruct H1 as [m t' H1|m t' HR H1|m e HR| |k|pts Q Nd He HQ]; inversion H2; subst.
    - split; [reflexivity|]. eapply move_det; eassumption.
    - split; [reflexivity|]. eapply move_det; eassumption.
    - exfalso. match goal with K : ruling n f ?x m (Refused _), HS : same_table n t ?x |- _ => pose proof (ruling_det f t x m _ _ HS HR K) as F end. discriminate F.
    - exfalso. match goal with K : ruling n f ?x m Accepted, HS : same_table n t ?x |- _ => pose proof (ruling_det f t x m _ _ HS HR K) as F end. discriminate F.
    - match goal with K : ruling n f ?x m (Refused _), HS : same_table n t ?x |- _ => pose proof (ruling_det f t x m _ _ HS HR K) as F end. rewrite F. split; [reflexivity|exact HS].
    - split; [reflexivity|]. destruct HS. split; cbn; try congruence; assumption.
    - split; [reflexivity|exact HS].
    - split; [reflexivity|]. destruct HS. split; cbn; try congruence; try assumption.
      intros p Hp. match goal with K : forall p, on n p -> Q0 p = _ |- _ => rewrite (HQ p Hp), (K p Hp) end. destruct (decide (p ∈ pts)); [reflexivity|auto].
  Qed.

  Theorem run_det f ops : forall t u l l' t' u', same_table n t u -> table_run n f t ops l t' -> table_run n f u ops l' u' -> l = l' /\ same_table n t' u'.
  Proof using Hn.
    induction ops as [|o ops IH]; intros t u l l' t' u' HS H1 H2; inversion H1; inversion H2; subst; [auto|].
    match goal with A : call_step n f t o ?a ?t1, B : call_step n f u o ?b ?u1 |- _ => destruct (call_det f t u o a b t1 u1 HS A B) as [-> HS'] end.
    match goal with A : table_run n f ?t1 ops ?la t', B : table_run n f ?u1 ops ?lb u' |- _ => destruct (IH t1 u1 la lb t' u' HS' A B) as [-> HS2] end.
    auto.
  Qed.
End Det.

(** ** The library follows it *)

Lemma greach_le dbg n b w g : greach dbg n b w g -> (n <= 19)%nat.
Proof. intros HG. pose proof (wf_n n _ (gi_wf _ _ _ _ (greach_inv _ _ _ _ _ HG))). lia. Qed.

Lemma stone_sim dbg n b w g x y : greach dbg n b w g -> on n (x, y) -> position g (x, y) = None -> (N.of_nat (b + w) < 65535)%N ->
  exists g', play dbg g (MPlay x y) = Ok g' /\ gm_rule g' = gm_rule g /\ stone_step n (flag_illegal (gm_rule g)) (table_of g) (x, y) (table_of g') /\
    greach dbg n (fst (bump_count (gm_turn g) (b, w))) (snd (bump_count (gm_turn g) (b, w))) g'.
Proof.
  intros HG Hp He L. pose proof (greach_inv _ _ _ _ _ HG) as G. pose proof (gi_chains _ _ _ _ G) as LC.
  destruct (play_spec dbg n b w g x y G Hp He) as [[_ [F _]]|(g' & E & G' & HM & _ & A1 & A2 & A3 & A4 & _ & A5 & A6)]; [lia|].
  exists g'. split; [exact E|]. split; [exact A4|]. split; [|econstructor; eassumption].
  rewrite suicide_bit in HM. pose proof (gi_black _ _ _ _ G) as B1. pose proof (gi_white _ _ _ _ G) as B2. pose proof (gi_black _ _ _ _ G') as B3. pose proof (gi_white _ _ _ _ G') as B4.
  pose proof (fun c => count_put n (position g) (x, y) (gm_turn g) c Hp He) as CP.
  change (pos_of (gm_goban g)) with (position g) in *. change (pos_of (gm_goban g')) with (position g') in *.
  split; cbn [t_pos t_turn t_passes t_outcome t_prisoners t_ko t_seen table_of].
  - exact HM.
  - exact A3.
  - exact A1.
  - exact A2.
  - rewrite CP. destruct (gm_turn g); cbn [bump_count fst snd] in *; destruct (decide _) as [F|F]; try discriminate F; try (contradict F; reflexivity); lia.
  - rewrite CP. destruct (gm_turn g); cbn [bump_count fst snd] in *; destruct (decide _) as [F|F]; try discriminate F; try (contradict F; reflexivity); lia.
  - exact A6.
  - destruct (history_insert_spec n _ _ (gi_hist _ _ _ _ G) (gi_wf _ _ _ _ G)) as (h' & Eh & _ & Hh). rewrite Eh in A5. injection A5 as A5. subst h'.
    assert (K : (exists y, y ∈ gm_history g /\ same_pos n (pos_of (gm_goban g)) (pos_of y)) <->
                (exists Q, Q ∈ List.map pos_of (gm_history g) /\ same_pos n (position g) Q)).
    { split.
      - intros (z & Hz & HS). exists (pos_of z). split; [apply in_seen; eauto|exact HS].
      - intros (Q & HQ & HS). apply in_seen in HQ as (z & -> & Hz). eauto. }
    rewrite K in Hh. destruct Hh as [[Hh ->]|[Hh ->]]; [left|right]; (split; [exact Hh|]); [reflexivity|apply map_app].
Qed.

Lemma bump_total c b w : (fst (bump_count c (b, w)) + snd (bump_count c (b, w)) = S (b + w))%nat.
Proof. destruct c; cbn; lia. Qed.

(** moves that can be carried out without checking *)
Definition possible (n : nat) (t : table) (m : move) : Prop :=
  match m with
  | MPlay x y => on n (x, y) /\ t_pos t (x, y) = None
  | MPass => (t_passes t < 2)%nat
  | MResign _ => True
  end.
Lemma move_possible n f t m t' : move_step n f t m t' -> possible n t m.
Proof. destruct 1; cbn; auto. Qed.

Lemma move_sim dbg n b w g m : greach dbg n b w g -> possible n (table_of g) m -> (N.of_nat (b + w + stones_of (OPlay m)) <= 65535)%N ->
  exists g' b' w', play dbg g m = Ok g' /\ gm_rule g' = gm_rule g /\ move_step n (flag_illegal (gm_rule g)) (table_of g) m (table_of g') /\
    greach dbg n b' w' g' /\ (b' + w' <= b + w + stones_of (OPlay m))%nat.
Proof.
  intros HG. destruct m as [|c|x y]; cbn [possible stones_of].
  - intros HP _. cbn [t_passes table_of] in HP. assert (E : (gm_passes g <? 2)%nat = true) by (apply Nat.ltb_lt, HP).
    eexists. exists b, w. split; [cbn [play]; rewrite E; reflexivity|]. split; [reflexivity|]. split; [|split; [|lia]].
    + exact (mv_pass n _ (table_of g) HP).
    + eapply gr_pass; [exact HG|]. cbn [play]. rewrite E. reflexivity.
  - intros _ _. eexists. exists b, w. split; [reflexivity|]. split; [reflexivity|]. split; [|split; [|lia]].
    + exact (mv_resign n _ (table_of g) c).
    + eapply gr_resign; [exact HG|reflexivity].
  - intros [Hp He] L. destruct (stone_sim dbg n b w g x y HG Hp He ltac:(lia)) as (g' & E & ER & HS & HG').
    eexists g', _, _. split; [exact E|]. split; [exact ER|]. split; [constructor; assumption|]. split; [exact HG'|]. rewrite bump_total. lia.
Qed.

Lemma ruled_moves dbg n b w g m : greach dbg n b w g -> (forall x y, m = MPlay x y -> on n (x, y)) -> (N.of_nat (b + w + stones_of (OTry m)) <= 65535)%N ->
  exists g' v, try_play dbg g m = Ok (g', v) /\ ruling n (flag_illegal (gm_rule g)) (table_of g) m v /\
    match v with Accepted => play dbg g m = Ok g' /\ possible n (table_of g) m | Refused _ => g' = g end.
Proof.
  intros HG Hm L. destruct (decide (exists x y, m = MPlay x y)) as [(x & y & ->)|Hns].
  - pose proof (greach_inv _ _ _ _ _ HG) as G. pose proof (gi_chains _ _ _ _ G) as LC. specialize (Hm x y eq_refl). cbn [stones_of] in L.
    destruct (judged_ok dbg n b w g x y HG Hm) as [[_ F]|(g' & v & E & HJ)]; [unfold no_slot_left in F; lia|].
    exists g', v. split; [exact E|]. split; [split; [exact Hm|exact HJ]|]. destruct v as [|e]; [|eapply refused_unchanged; exact E].
    unfold try_play in E. destruct (gm_passes g =? 2)%nat; [discriminate|]. apply bind_ok in E as (c & Ec & E).
    destruct (negb (mcolor_eqb c None)); [discriminate|]. apply bind_ok in E as (e & Ee & E). destruct e as [e|]; [discriminate|].
    apply bind_ok in E as (g2 & E2 & E). injection E as <-. split; [exact E2|]. split; [exact Hm|].
    apply Forall_cons in HJ as [_ HJ]. apply Forall_cons in HJ as [HJ _]. cbn [snd fst t_pos table_of] in *.
    destruct (position g (x, y)); [exfalso; apply HJ; discriminate|reflexivity].
  - assert (K : ruling n (flag_illegal (gm_rule g)) (table_of g) m = first_reason [(EGamePaused, gm_passes g = 2%nat)]).
    { destruct m; try reflexivity. exfalso. apply Hns. eauto. }
    rewrite K. destruct (decide (gm_passes g = 2%nat)) as [HP|HP].
    + exists g, (Refused EGamePaused). split; [apply paused_refuses, HP|]. split; [apply first_reason_hit, HP|reflexivity].
    + assert (HPm : possible n (table_of g) m).
      { pose proof (gi_passes _ _ _ _ (greach_inv _ _ _ _ _ HG)) as LP. destruct m; cbn [possible t_passes table_of]; [lia|exact Logic.I|]. exfalso. apply Hns. eauto. }
      destruct (move_sim dbg n b w g m HG HPm) as (g' & b' & w' & E & _); [exact L|].
      exists g', Accepted. split; [|split; [apply first_reason_skip; [exact HP|constructor]|auto]].
      unfold try_play. destruct (Nat.eqb_spec (gm_passes g) 2) as [|_]; [contradiction|].
      destruct m; [rewrite E; reflexivity|rewrite E; reflexivity|exfalso; apply Hns; eauto].
Qed.

(** calls that the abstract game can answer *)
Definition answerable (n : nat) (t : table) (o : op) : Prop :=
  match o with
  | OPlay m => possible n t m
  | OTry (MPlay x y) => on n (x, y)
  | OHandicap pts => NoDup pts /\ forall p, p ∈ pts -> on n p /\ t_pos t p = None
  | _ => True
  end.
Lemma call_answerable n f t o a t' : call_step n f t o a t' -> answerable n t o.
Proof.
  destruct 1 as [m t' H|m t' HR H|m e HR| | |pts Q Nd He HQ]; cbn [answerable]; auto.
  - eapply move_possible, H.
  - destruct m; auto. apply HR.
  - destruct m; auto. apply HR.
Qed.

Lemma call_sim dbg n b w g o : greach dbg n b w g -> answerable n (table_of g) o -> (N.of_nat (b + w + stones_of o) <= 65535)%N ->
  exists g' a b' w', call dbg g o = Ok (g', a) /\ flag_illegal (gm_rule g') = flag_illegal (gm_rule g) /\
    call_step n (flag_illegal (gm_rule g)) (table_of g) o a (table_of g') /\ greach dbg n b' w' g' /\ (b' + w' <= b + w + stones_of o)%nat.
Proof.
  intros HG. destruct o as [m|m| |k|pts]; cbn [answerable call].
  - intros HP L. destruct (move_sim dbg n b w g m HG HP L) as (g' & b' & w' & E & ER & HS & HG' & HL). exists g', None, b', w'. rewrite E. cbn [bind].
    split; [reflexivity|]. split; [rewrite ER; reflexivity|]. split; [constructor; exact HS|auto].
  - intros HP L. destruct (ruled_moves dbg n b w g m HG) as (g' & v & E & HR & HV); [intros x y ->; exact HP|exact L|].
    rewrite E. cbn [bind]. destruct v as [|e].
    + destruct HV as [E' HPm]. destruct (move_sim dbg n b w g m HG HPm) as (g2 & b' & w' & E2 & ER & HS & HG' & HL); [exact L|].
      rewrite E' in E2. injection E2 as <-. exists g', (Some Accepted), b', w'. split; [reflexivity|]. split; [rewrite ER; reflexivity|]. split; [constructor; assumption|]. split; [exact HG'|]. exact HL.
    + subst g'. exists g, (Some (Refused e)), b, w. split; [reflexivity|]. split; [reflexivity|]. split; [constructor; exact HR|]. split; [exact HG|lia].
  - intros _ _. exists (resume g), None, b, w. split; [reflexivity|]. split; [reflexivity|]. split; [exact (ca_resume n _ (table_of g))|]. split; [constructor; exact HG|lia].
  - intros _ _. exists (set_komi g k), None, b, w. split; [reflexivity|]. split; [reflexivity|]. split; [exact (ca_komi n _ (table_of g) k)|]. split; [constructor; exact HG|lia].
  - intros [Nd He] L. cbn [stones_of] in *. pose proof (greach_inv _ _ _ _ _ HG) as G. pose proof (gi_chains _ _ _ _ G) as LC.
    assert (E : exists g', put_handicap dbg g pts = Ok g').
    { unfold put_handicap. rewrite fold_handicap. destruct (push_list_wf dbg n (List.map (fun p => (p, Black)) pts) (gm_goban g) (gi_wf _ _ _ _ G)) as [[_ F]|(gb & E & _)].
      - assert (K : (List.map (fun p => (p, Black)) pts).*1 = pts) by (clear; induction pts as [|p l IH]; [reflexivity|]; cbn; f_equal; exact IH). rewrite K. exact Nd.
      - intros s Hs. apply elem_of_list_In, in_map_iff in Hs as (p & <- & Hp). apply He, elem_of_list_In, Hp.
      - exfalso. rewrite map_length in F. lia.
      - rewrite E. cbn [bind]. eauto. }
    destruct E as [g' E]. destruct (ginv_handicap dbg n b w g pts g' G Nd He E) as [_ HQ]. rewrite E. cbn [bind].
    exists g', None, (b + length pts)%nat, w. split; [reflexivity|].
    assert (ET : flag_illegal (gm_rule g') = flag_illegal (gm_rule g) /\ table_of g' = mkTable (position g') White (gm_passes g) (gm_outcome g) (gm_prisoners g) (gm_ko_point g) (List.map pos_of (gm_history g))).
    { unfold put_handicap in E. apply bind_ok in E as (gb & _ & E). injection E as <-. split; reflexivity. }
    destruct ET as [ER ET]. split; [exact ER|]. split; [rewrite ET; apply (ca_handicap n _ (table_of g)); assumption|]. split; [eapply gr_handicap; eassumption|lia].
Qed.

Theorem calls_sim dbg n ops : forall b w g, greach dbg n b w g -> (forall o, o ∈ ops -> guarded n o) -> (N.of_nat (b + w + all_stones ops) <= 65535)%N ->
  exists g' l, calls dbg g ops = Ok (g', l) /\ table_run n (flag_illegal (gm_rule g)) (table_of g) ops l (table_of g').
Proof.
  induction ops as [|o ops IH]; intros b w g HG Hg L; cbn [calls].
  { exists g, []. split; [reflexivity|constructor]. }
  unfold all_stones in *. change (list_sum (List.map stones_of (o :: ops))) with (stones_of o + list_sum (List.map stones_of ops))%nat in L.
  destruct (call_sim dbg n b w g o HG) as (g1 & a & b1 & w1 & E & ER & HS & HG1 & HL).
  { specialize (Hg o (elem_of_list_here _ _)). destruct o as [|m| | |]; cbn [guarded answerable] in *; try contradiction; auto. }
  { lia. }
  rewrite E. cbn [bind]. destruct (IH b1 w1 g1 HG1) as (g2 & l & E2 & HR).
  { intros o' Ho. apply Hg. right. exact Ho. }
  { lia. }
  rewrite E2. cbn [bind]. exists g2, (a :: l). split; [reflexivity|]. rewrite ER in HR. econstructor; eassumption.
Qed.

Lemma answerable_same n t u o : same_table n t u -> answerable n u o -> answerable n t o.
Proof.
  intros [HP _ Hps _ _ _ _]. destruct o as [m|m| |k|pts]; cbn [answerable]; auto.
  - destruct m as [|c|x y]; cbn [possible]; [rewrite Hps; auto|auto|]. intros [Hp He]. split; [exact Hp|]. rewrite (HP _ Hp). exact He.
  - intros [Nd He]. split; [exact Nd|]. intros p Hp. destruct (He p Hp) as [Hon He']. split; [exact Hon|]. rewrite (HP _ Hon). exact He'.
Qed.

Theorem calls_follow dbg n f ops : forall b w g t l t', greach dbg n b w g -> flag_illegal (gm_rule g) = f -> same_table n (table_of g) t ->
  table_run n f t ops l t' -> (N.of_nat (b + w + all_stones ops) <= 65535)%N ->
  exists g', calls dbg g ops = Ok (g', l) /\ same_table n (table_of g') t'.
Proof.
  induction ops as [|o ops IH]; intros b w g t l t' HG EF HST HR L; inversion HR as [|? ? a t1 ? l1 ? HC HR1]; subst; cbn [calls].
  { exists g. auto. }
  unfold all_stones in *. change (list_sum (List.map stones_of (o :: ops))) with (stones_of o + list_sum (List.map stones_of ops))%nat in L.
  destruct (call_sim dbg n b w g o HG) as (g1 & a1 & b1 & w1 & E & ER & HS & HG1 & HL).
  { eapply answerable_same; [exact HST|]. eapply call_answerable. exact HC. }
  { lia. }
  destruct (call_det n (greach_le _ _ _ _ _ HG) _ _ _ _ _ _ _ _ HST HS HC) as [-> HST1].
  rewrite E. cbn [bind]. destruct (IH b1 w1 g1 t1 l1 t' HG1 ER HST1 HR1) as (g2 & E2 & HST2); [lia|].
  rewrite E2. cbn [bind]. eauto.
Qed.

Lemma start_table dbg n s r g : (1 <= n)%nat -> size_of s = (n, n) -> game_new s r = Ok g -> same_table n (table_of g) start /\ greach dbg n 0 0 g.
Proof.
  intros Hn Hs E. pose proof (gr_new dbg n s r g Hn Hs E) as HG. split; [|exact HG].
  pose proof (ginv_new n s r g Hn Hs E) as G. unfold game_new in E. apply bind_ok in E as (gb & Eb & E). injection E as E. subst g.
  rewrite Hs in Eb. pose proof (new_le n gb Eb). destruct (new_wf n ltac:(lia)) as (gb' & Eb' & W & _ & Hc). rewrite Eb in Eb'. injection Eb' as <-.
  split; cbn [table_of start t_pos t_turn t_passes t_outcome t_prisoners t_ko t_seen gm_goban gm_turn gm_passes gm_outcome gm_prisoners gm_ko_point gm_history List.map]; try reflexivity; [|constructor].
  intros p Hp. exact (pos_new n gb p W Hc Hp).
Qed.

(** whole games, from the start *)
Theorem game_follows dbg n s r g ops l t' : (1 <= n)%nat -> size_of s = (n, n) -> game_new s r = Ok g ->
  table_run n (flag_illegal r) start ops l t' -> (N.of_nat (all_stones ops) <= 65535)%N ->
  exists g', calls dbg g ops = Ok (g', l) /\ same_table n (table_of g') t'.
Proof.
  intros Hn Hs E HR L. destruct (start_table dbg n s r g Hn Hs E) as [HST HG].
  apply (calls_follow dbg n (flag_illegal r) ops 0 0 g start l t' HG); auto.
  unfold game_new in E. apply bind_ok in E as (gb & _ & E). injection E as <-. reflexivity.
Qed.

(** ** Tables that agree can be continued alike *)

Section Transport.
  Context (n : nat).
  Hypothesis Hn : (n <= 19)%nat.

  Lemma ruling_same f t u m v : same_table n t u -> ruling n f t m v -> ruling n f u m v.
  Proof using Hn.
    intros HS. destruct m as [|c|x y]; cbn [ruling]; [rewrite (sa_passes _ _ _ HS); auto|rewrite (sa_passes _ _ _ HS); auto|].
    intros [Hp HJ]. split; [exact Hp|]. eapply first_reason_ext; [apply same_reasons; eassumption|exact HJ].
  Qed.

  Lemma stone_same f t u p t' : on n p -> same_table n t u -> stone_step n f t p t' -> exists u', stone_step n f u p u' /\ same_table n t' u'.
  Proof using Hn.
    intros Hp HST H. pose proof HST as [HP HT Hps HO HPR HK HS]. destruct H as [A1 A2 A3 A4 A5 A6 A7 A8].
    destruct (go_move_exists (negb (no_suicide f)) n (t_pos u) p (t_turn u) Hn Hp) as [R HM]. rewrite HT in A1.
    pose proof (go_move_det _ _ _ _ _ _ _ _ HP A1 HM) as HR.
    pose proof (seen_iff n (t_pos t) (t_pos u) _ _ HS HP) as K.
    pose proof (fun c => same_count n _ _ HR c) as HC'. pose proof (fun c => same_count n _ _ (same_put n _ _ HP p (t_turn u) Hp) c) as HC.
    assert (X : exists l, ((exists Q, Q ∈ t_seen u /\ same_pos n (t_pos u) Q) /\ l = t_seen u \/ (~ exists Q, Q ∈ t_seen u /\ same_pos n (t_pos u) Q) /\ l = t_seen u ++ [t_pos u]) /\
       Forall2 (same_pos n) (t_seen t') l).
    { destruct A8 as [[A8 ->]|[A8 ->]].
      - exists (t_seen u). split; [left; split; [apply K, A8|reflexivity]|exact HS].
      - exists (t_seen u ++ [t_pos u]). split; [right; split; [rewrite <- K; exact A8|reflexivity]|]. apply Forall2_app; [exact HS|]. apply Forall2_cons. split; [exact HP|apply Forall2_nil_2]. }
    destruct X as (l & Hl & HF).
    exists (mkTable R (t_turn t') (t_passes t') (t_outcome t') (t_prisoners t') (t_ko t') l). split; split; cbn [t_pos t_turn t_passes t_outcome t_prisoners t_ko t_seen]; try reflexivity; try assumption.
    - rewrite A2, HT. reflexivity.
    - rewrite A4. exact HO.
    - rewrite <- HC', A5, HPR, HT, HC. reflexivity.
    - rewrite <- HC', A6, HPR, HT, HC. reflexivity.
    - intros q. rewrite A7, HT. apply same_captures_only; assumption.
  Qed.

  Lemma move_same f t u m t' : same_table n t u -> move_step n f t m t' -> exists u', move_step n f u m u' /\ same_table n t' u'.
  Proof using Hn.
    intros HS H. destruct H as [x y t' Hp He H|HP|c].
    - destruct (stone_same f t u (x, y) t' Hp HS H) as (u' & H' & HS'). exists u'. split; [|exact HS']. constructor; [exact Hp| |exact H']. rewrite <- (sa_pos _ _ _ HS _ Hp). exact He.
    - eexists. split; [constructor; rewrite <- (sa_passes _ _ _ HS); exact HP|]. destruct HS. split; cbn; try congruence; assumption.
    - eexists. split; [constructor|]. destruct HS. split; cbn; try congruence; assumption.
  Qed.

  Lemma call_same f t u o a t' : same_table n t u -> call_step n f t o a t' -> exists u', call_step n f u o a u' /\ same_table n t' u'.
  Proof using Hn.
    intros HS H. destruct H as [m t' H|m t' HR H|m e HR| |k|pts Q Nd He HQ].
    - destruct (move_same f t u m t' HS H) as (u' & H' & HS'). exists u'. split; [constructor; exact H'|exact HS'].
    - destruct (move_same f t u m t' HS H) as (u' & H' & HS'). exists u'. split; [constructor; [eapply ruling_same; eassumption|exact H']|exact HS'].
    - exists u. split; [constructor; eapply ruling_same; eassumption|exact HS].
    - eexists. split; [constructor|]. destruct HS. split; cbn; try congruence; assumption.
    - exists u. split; [constructor|exact HS].
    - eexists. split; [apply (ca_handicap n f u pts Q Nd)|].
      + intros p Hp. destruct (He p Hp) as [Hon E]. split; [exact Hon|]. rewrite <- (sa_pos _ _ _ HS _ Hon). exact E.
      + intros p Hp. rewrite (HQ p Hp), (sa_pos _ _ _ HS _ Hp). reflexivity.
      + destruct HS. split; cbn; try congruence; try assumption.
  Qed.

  Theorem run_same f ops : forall t u l t', same_table n t u -> table_run n f t ops l t' -> exists u', table_run n f u ops l u' /\ same_table n t' u'.
  Proof using Hn.
    induction ops as [|o ops IH]; intros t u l t' HS H; inversion H as [|? ? a t1 ? l1 ? HC HR1]; subst.
    - exists u. split; [constructor|exact HS].
    - destruct (call_same f t u o a t1 HS HC) as (u1 & HC1 & HS1). destruct (IH t1 u1 l1 t' HS1 HR1) as (u' & HR & HS'). exists u'. split; [econstructor; eassumption|exact HS'].
  Qed.
End Transport.

(** guarded calls from the start of a game: the abstract game goes on for ever and the library answers alike *)
Theorem game_guarded dbg n s r ops : (1 <= n <= 19)%nat -> size_of s = (n, n) -> (forall o, o ∈ ops -> guarded n o) -> (N.of_nat (all_stones ops) <= 65535)%N ->
  exists g g' l t', game_new s r = Ok g /\ calls dbg g ops = Ok (g', l) /\ table_run n (flag_illegal r) start ops l t' /\ same_table n (table_of g') t'.
Proof.
  intros Hn Hs Hg L. destruct (new_wf n Hn) as (gb & Eb & _). assert (E : exists g, game_new s r = Ok g) by (unfold game_new; rewrite Hs, Eb; cbn; eauto).
  destruct E as [g E]. assert (ER : gm_rule g = r) by (unfold game_new in E; apply bind_ok in E as (? & _ & E); injection E as <-; reflexivity).
  destruct (start_table dbg n s r g ltac:(lia) Hs E) as [HST HG].
  destruct (calls_sim dbg n ops 0 0 g HG Hg L) as (g' & l & EC & HR). rewrite ER in HR.
  destruct (run_same n ltac:(lia) _ _ _ _ _ _ HST HR) as (u' & HR' & HS'). exists g, g', l, u'. auto.
Qed.
