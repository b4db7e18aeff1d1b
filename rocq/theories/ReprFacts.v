(** Games that look alike go on alike: the numbering of groups, the order of their
    stones, the iteration order of hash sets and the build profile never show. *)
From stdpp Require Import relations.
From Verif Require Import Inv Bridge GameFacts RulesFacts TerritoryFacts ScoreFacts ClaimFacts SymSpec SymFacts SymGame LongFacts AgreeFacts MonadFacts.
Open Scope nat_scope.

Lemma id_move m : image_move (fun p => p) (fun c => c) m = m.
Proof. destruct m; reflexivity. Qed.
Lemma id_end o : option_map (image_end (fun c => c)) o = o.
Proof. destruct o as [[]|]; reflexivity. Qed.
Lemma id_event e : image_event (fun c => c) e = e.
Proof. destruct e; reflexivity. Qed.
Lemma map_same {A} (f : A -> A) l : (forall x, f x = x) -> List.map f l = l.
Proof. intros H. induction l as [|x l IH]; cbn; [done|]. by rewrite H, IH. Qed.
Lemma id_image n P Q : image n (fun p => p) (fun c => c) P Q <-> same_pos n P Q.
Proof.
  unfold image, same_pos. split; intros H p Hp; specialize (H p Hp); destruct (P p); cbn in *; congruence.
Qed.

Lemma run_rule dbg ms : forall g g' tr, run dbg g (List.map OTry ms) = Ok (g', tr) -> gm_rule g' = gm_rule g.
Proof.
  induction ms as [|m ms IH]; intros g g' tr; cbn.
  - by intros [= -> _].
  - destruct (try_play dbg g m) as [[g1 v]| |] eqn:E; cbn; try discriminate.
    destruct (run dbg g1 (List.map OTry ms)) as [[g2 e2]| |] eqn:F; cbn; try discriminate.
    intros [= <- _]. rewrite (IH _ _ _ F). exact (try_rule _ _ _ _ _ E).
Qed.

Lemma alike_image n g h : look_alike n g h ->
  image_game n (fun p => p) (fun c => c) g h /\ image_history n (fun p => p) (fun c => c) g h /\ image_caught (fun c => c) g h.
Proof.
  intros [A1 A2 A3 A4 A5 A6 A7 A8]. split; [|split].
  - constructor; [by apply id_image|done|done|rewrite id_end; done| |by rewrite A7].
    rewrite <- A5. by destruct (gm_ko_point g).
  - unfold image_history. eapply Forall2_impl; [exact A8|]. intros a b H. by apply id_image.
  - intros c. unfold caught. by rewrite A6.
Qed.

Lemma image_alike n g h : image_game n (fun p => p) (fun c => c) g h -> image_history n (fun p => p) (fun c => c) g h ->
  image_caught (fun c => c) g h -> gm_rule g = gm_rule h -> look_alike n g h.
Proof.
  intros [A1 A2 A3 A4 A5 A6] H C R. constructor; [by apply id_image|done|done| | | |done|].
  - by rewrite A4, id_end.
  - rewrite A5. by destruct (gm_ko_point g).
  - pose proof (C White) as CW. pose proof (C Black) as CB. cbn in CW, CB. destruct (gm_prisoners g), (gm_prisoners h); cbn in *; congruence.
  - eapply Forall2_impl; [exact H|]. intros a b E. by apply id_image.
Qed.

Theorem alike_run n dbg dbg' ms b w b' w' g h :
  greach dbg n b w g -> greach dbg' n b' w' h -> look_alike n g h ->
  (forall x y, MPlay x y ∈ ms -> on n (x, y)) ->
  (N.of_nat (b + w + length ms) <= 65535)%N -> (N.of_nat (b' + w' + length ms) <= 65535)%N ->
  exists g' h' tr, run dbg g (List.map OTry ms) = Ok (g', tr) /\ run dbg' h (List.map OTry ms) = Ok (h', tr) /\ look_alike n g' h'.
Proof.
  intros HG HH A Hon L L'. destruct (alike_image n g h A) as (I & IH & IC).
  destruct (image_run n _ _ _ dbg dbg' ms (id_sym n) b w b' w' g h HG HH I IH IC Hon L L' (or_intror (fun q _ => eq_refl)))
    as (g' & h' & tr & E & F & I' & IH' & IC').
  rewrite (map_same (image_move _ _) ms id_move) in F. rewrite (map_same (image_event _) tr id_event) in F.
  exists g', h', tr. split; [exact E|]. split; [exact F|]. apply image_alike; [assumption..|].
  rewrite (run_rule _ _ _ _ _ E), (run_rule _ _ _ _ _ F). apply A.
Qed.

Lemma card_ext (D E : coord -> Prop) k : (forall p, D p <-> E p) -> card D k -> card E k.
Proof. intros H (l & Nd & M & L). exists l. split; [done|]. split; [|done]. intros p. by rewrite M. Qed.

Lemma connected_cong n P Q p q : same_pos n P Q -> connected n P p q -> connected n Q p q.
Proof.
  intros S H. induction H as [|x y z (A & B & C & D) R IH]; [apply rtc_refl|].
  eapply rtc_l; [|exact IH]. split; [done|]. split; [done|]. split; [done|]. rewrite <- (S x A), <- (S y B). done.
Qed.

Lemma connected_on_r n P p q : on n p -> connected n P p q -> on n q.
Proof. intros Hp H. induction H as [|x y z (A & B & _) R IH]; auto. Qed.

Lemma touches_cong n P Q p c : same_pos n P Q -> touches n P p c -> touches n Q p c.
Proof. intros S (q & r & C & Hr & A & E). exists q, r. split; [by apply (connected_cong n P)|]. split; [done|]. split; [done|]. by rewrite <- (S r Hr). Qed.

Lemma same_sym n P Q : same_pos n P Q -> same_pos n Q P.
Proof. intros S p Hp. symmetry. by apply S. Qed.

Lemma owned_cong n P Q c p : same_pos n P Q -> owned n P c p <-> owned n Q c p.
Proof.
  intros S. pose proof (same_sym n P Q S) as S'. unfold owned.
  split; intros (Hp & E & T & N); (split; [done|]).
  - split; [by rewrite <- (S p Hp)|]. split; [by apply (touches_cong n P)|]. intros T'. apply N. by apply (touches_cong n Q).
  - split; [by rewrite (S p Hp)|]. split; [by apply (touches_cong n Q)|]. intros T'. apply N. by apply (touches_cong n P).
Qed.

Lemma count_cong n P Q c : same_pos n P Q -> count n P c = count n Q c.
Proof.
  intros S. unfold count.
  assert (H : forall l, (forall p, p ∈ l -> on n p) -> length (filter (fun p => P p = Some c) l) = length (filter (fun p => Q p = Some c) l)).
  { induction l as [|p l IH]; intros Hl; [done|]. rewrite !filter_cons, (S p (Hl p ltac:(left))).
    case_decide; cbn; rewrite IH; try done; intros q Hq; apply Hl; by right. }
  apply H. intros p. apply elem_of_points.
Qed.

(** the score depends on the position, the prisoners and the komi only; no bound on komi *)
Theorem alike_score n order order' dbg dbg' b w b' w' g h flags :
  greach dbg n b w g -> greach dbg' n b' w' h -> (forall l, order l ≡ₚ l) -> (forall l, order' l ≡ₚ l) ->
  look_alike n g h ->
  (exists s, calculate_score_by order dbg g flags = Ok s /\ calculate_score_by order' dbg' h flags = Ok s) /\
  (exists o, outcome order dbg g = Ok o /\ outcome order' dbg' h = Ok o).
Proof.
  intros HG HH Ho Ho' A.
  assert (K : forall f, exists s, calculate_score_by order dbg g f = Ok s /\ calculate_score_by order' dbg' h f = Ok s).
  { intros f.
    pose proof (gi_wf _ _ _ _ (greach_inv _ _ _ _ _ HG)) as Wg. pose proof (gi_wf _ _ _ _ (greach_inv _ _ _ _ _ HH)) as Wh.
    destruct (calculate_territories_ok order dbg n (gm_goban g) Wg Ho) as (tb & tw & E & CB & CW).
    destruct (calculate_territories_ok order' dbg' n (gm_goban h) Wh Ho') as (tb' & tw' & E' & CB' & CW').
    assert (tb' = tb) as ->.
    { eapply card_unique; [exact CB'|]. eapply card_ext; [|exact CB]. intros p. apply owned_cong, A. }
    assert (tw' = tw) as ->.
    { eapply card_unique; [exact CW'|]. eapply card_ext; [|exact CW]. intros p. apply owned_cong, A. }
    unfold calculate_score_by. rewrite E, E'. cbn [bind].
    rewrite (claim_count dbg n (b + w) (gm_goban g)) by exact (br_game _ _ _ _ _ HG).
    rewrite (claim_count dbg' n (b' + w') (gm_goban h)) by exact (br_game _ _ _ _ _ HH).
    change (pos_of (gm_goban g)) with (position g). change (pos_of (gm_goban h)) with (position h).
    rewrite (count_cong n _ _ Black (al_pos _ _ _ A)), (count_cong n _ _ White (al_pos _ _ _ A)).
    unfold komi. rewrite (al_rule _ _ _ A), (al_prisoners _ _ _ A).
    destruct (flag_contains f PRISONNERS), (flag_contains f STONES); eexists; split; reflexivity. }
  split; [apply K|]. unfold outcome, is_over. rewrite (al_outcome _ _ _ A), (al_passes _ _ _ A).
  destruct (negb _); [eexists; split; reflexivity|]. destruct (gm_outcome h); [eexists; split; reflexivity|].
  unfold calculate_score. rewrite (al_rule _ _ _ A). destruct (K (flag_score (gm_rule h))) as ([x y] & -> & ->). cbn [bind].
  destruct (f32_lt _ _); [eexists; split; reflexivity|]. destruct (f32_lt _ _); eexists; split; reflexivity.
Qed.
