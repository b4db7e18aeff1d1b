(** The statements of the property files, derived from the lemmas about the model. *)
From stdpp Require Import relations sorting.
From Verif Require Import Spec Observe Ops ScoreSpec DeadStones Struct Inv Bridge MonadFacts GameFacts RulesFacts KoFacts BoardFacts CheckFacts EyeFacts LegalFacts ApiFacts AgreeFacts LegalsFacts OpsFacts TerritoryFacts ScoreFacts ViewFacts BoundsFacts SetupFacts RefuteFacts Remove Capture.
From Coq Require Import Lia.

Local Notation length := Datatypes.length.

Lemma suicide_bit r : flag_contains (flag_illegal r) SUICIDE = forbids_suicide r.
Proof. apply flag_bit. reflexivity. Qed.
Lemma ko_bit r : flag_contains (flag_illegal r) KO = forbids_ko r.
Proof. apply flag_bit. reflexivity. Qed.
Lemma superko_bit r : flag_contains (flag_illegal r) SUPERKO = forbids_superko r.
Proof. apply flag_bit. reflexivity. Qed.
Lemma fill_eye_bit r : flag_contains (flag_illegal r) FILLEYE = forbids_fill_eye r.
Proof. apply flag_bit. reflexivity. Qed.

(** ** Board *)

Lemma claim_capture dbg n b w g x y :
  greach dbg n b w g -> on n (x, y) -> position g (x, y) = None -> play dbg g (MPlay x y) <> Panic ->
  exists g', play dbg g (MPlay x y) = Ok g' /\
    go_move (negb (forbids_suicide (gm_rule g))) n (position g) (x, y) (gm_turn g) (position g') /\
    gm_turn g' = opp (gm_turn g) /\ gm_passes g' = 0%nat /\ gm_outcome g' = gm_outcome g /\
    gm_rule g' = gm_rule g /\ gm_handicap g' = gm_handicap g /\ gsize (gm_goban g') = gsize (gm_goban g) /\
    (forall q, gm_ko_point g' = Some q <-> captures_only n (position g) (x, y) (gm_turn g) q).
Proof.
  intros HG Hp He L. pose proof (greach_inv _ _ _ _ _ HG) as G. rewrite <- suicide_bit.
  destruct (play_spec dbg n b w g x y G Hp He) as [(F & _)|(g' & E & G' & M & _ & A1 & A2 & A3 & A4 & A5 & _ & K)]; [contradiction|].
  exists g'. split; [exact E|]. split; [exact M|]. do 5 (split; [assumption|]). split; [|exact K].
  rewrite (wf_size n _ (gi_wf _ _ _ _ G)), (wf_size n _ (gi_wf _ _ _ _ G')). reflexivity.
Qed.

Lemma claim_tromp_taylor dbg n g x y g' :
  lreach dbg n g -> on n (x, y) -> try_play dbg g (MPlay x y) = Ok (g', Accepted) ->
  position g (x, y) = None /\ tromp_taylor_move n (position g) (x, y) (gm_turn g) (position g').
Proof.
  intros L Hp E. destruct (lreach_greach _ _ _ L) as (b & w & HG). pose proof (greach_inv _ _ _ _ _ HG) as G.
  destruct (accepted_step dbg n b w g x y g' G Hp E) as (He & Hs & _ & M). cbv zeta in *. split; [exact He|].
  pose proof (wf_n n _ (gi_wf _ _ _ _ G)). destruct (lreach_inv dbg n g L) as [HA _].
  eapply go_move_tromp_taylor; try eassumption. lia.
Qed.

Lemma claim_count dbg n m g : breach dbg n m g ->
  number_of_stones g = (count n (pos_of g) Black, count n (pos_of g) White).
Proof. intros H. apply number_of_stones_ok, (breach_wf _ _ _ _ H). Qed.

Lemma claim_hash dbg dbg' n m m' a b : breach dbg n m a -> breach dbg' n m' b ->
  zobrist_hash a = position_key n (pos_of a) /\
  (same_pos n (pos_of a) (pos_of b) -> zobrist_hash a = zobrist_hash b).
Proof.
  intros Ha Hb. pose proof (hash_key n a (breach_wf _ _ _ _ Ha)) as Ea. pose proof (hash_key n b (breach_wf _ _ _ _ Hb)) as Eb.
  split; [exact Ea|]. intros H. rewrite Ea, Eb. unfold position_key.
  assert (K : forall l, (forall p, p ∈ l -> on n p) ->
    foldr (fun p acc => N.lxor (stone_key n p (pos_of a p)) acc) 0%N l = foldr (fun p acc => N.lxor (stone_key n p (pos_of b p)) acc) 0%N l).
  { induction l as [|p l IH]; intros Hl; cbn [foldr]; [reflexivity|].
    rewrite (H p), IH; [reflexivity|intros; apply Hl; right; assumption|apply Hl; left]. }
  apply K. intros p Hp. apply elem_of_points. exact Hp.
Qed.

Lemma claim_equivalence d1 d2 d3 n m1 m2 m3 a b c : breach d1 n m1 a -> breach d2 n m2 b -> breach d3 n m3 c ->
  goban_eq a a = Ok true /\
  goban_eq a b = goban_eq b a /\
  (goban_eq a b = Ok true -> goban_eq b c = Ok true -> goban_eq a c = Ok true).
Proof.
  intros Ha Hb Hc. apply breach_wf in Ha, Hb, Hc.
  destruct (eq_api n a a Ha Ha) as (v1 & E1 & H1 & _). destruct (eq_api n a b Ha Hb) as (v2 & E2 & H2 & _).
  destruct (eq_api n b a Hb Ha) as (v3 & E3 & H3 & _). destruct (eq_api n b c Hb Hc) as (v4 & E4 & H4 & _).
  destruct (eq_api n a c Ha Hc) as (v5 & E5 & H5 & _). rewrite E1, E2, E3, E4, E5.
  split; [f_equal; apply H1; intros p _; reflexivity|]. split.
  - f_equal. apply eq_true_iff_eq. rewrite H2, H3. split; intros H p Hp; symmetry; apply H, Hp.
  - intros X Y. injection X as ->. injection Y as ->. f_equal. apply H5. intros p Hp.
    rewrite (proj1 H2 eq_refl p Hp). apply (proj1 H4 eq_refl p Hp).
Qed.

Lemma claim_no_panic dbg n b w g x y :
  greach dbg n b w g -> on n (x, y) -> position g (x, y) = None -> (N.of_nat (b + w) < 65535)%N ->
  (exists g', play dbg g (MPlay x y) = Ok g') /\
  (exists v, play_for_verification dbg g (x, y) = Ok v) /\
  (forall c, exists gb, push dbg (gm_goban g) (x, y) c = Ok gb) /\
  (forall m, (forall x y, m = MPlay x y -> on n (x, y)) -> exists r, try_play dbg g m = Ok r).
Proof.
  intros HG Hp He L. pose proof (greach_inv _ _ _ _ _ HG) as G. pose proof (gi_wf _ _ _ _ G) as W. pose proof (gi_chains _ _ _ _ G) as Lc.
  split; [|split; [|split]].
  - destruct (play_spec dbg n b w g x y G Hp He) as [(_ & F & _)|(g' & E & _)]; [lia|eauto].
  - destruct (verification_ok dbg n g (x, y) W Hp He) as [(_ & F & _)|(v & E & _)]; [lia|eauto].
  - intros c. destruct (push_wf dbg n (gm_goban g) (x, y) c W Hp He) as [(_ & F & _)|(v & E & _)]; [lia|eauto].
  - intros m Hm. destruct (decide (gm_passes g = 2%nat)) as [P2|P2]; [rewrite (paused_refuses dbg g m P2); eauto|].
    destruct m as [|c|a d].
    + unfold try_play. destruct (Nat.eqb_spec (gm_passes g) 2); [contradiction|].
      destruct (play dbg g MPass) as [g'| |] eqn:E; [eexists; reflexivity| |].
      * apply pass_panics in E. pose proof (gi_passes _ _ _ _ G). lia.
      * exfalso. unfold play, assert_ in E. destruct (_ <? _)%nat; discriminate.
    + unfold try_play. destruct (Nat.eqb_spec (gm_passes g) 2); [contradiction|]. eexists; reflexivity.
    + specialize (Hm a d eq_refl). rewrite (try_play_point dbg n g a d W Hm P2).
      destruct (check_point_by_total dbg n g (a, d) (flag_illegal (gm_rule g)) W (gi_hist _ _ _ _ G) Hm ltac:(lia)) as (e & Ec).
      unfold check_point. rewrite Ec. cbn [bind]. destruct e as [e|]; [eauto|].
      pose proof (contains_check Ec W (gi_hist _ _ _ _ G) Hm) as (Hempty & _).
      destruct (play_spec dbg n b w g a d G Hm Hempty) as [(_ & F & _)|(g' & E & _)]; [lia|]. rewrite E. cbn [bind]. eauto.
Qed.

Lemma claim_panics_exactly dbg n b w g x y :
  greach dbg n b w g -> on n (x, y) -> position g (x, y) = None ->
  play dbg g (MPlay x y) <> Diverge /\
  (play dbg g (MPlay x y) = Panic <->
   N.of_nat (length (chains (gm_goban g))) = 65535%N /\ ~ one_friend n (position g) (x, y) (gm_turn g)).
Proof.
  intros HG Hp He. pose proof (greach_inv _ _ _ _ _ HG) as G.
  destruct (play_spec dbg n b w g x y G Hp He) as [(E & F1 & F2)|(g' & E & G' & _ & Hl & _)]; rewrite E.
  - split; [discriminate|]. split; [intros _; auto|reflexivity].
  - split; [discriminate|]. split; [discriminate|]. intros [F1 F2].
    destruct Hl as [[H _]|[_ H]]; [contradiction|].
    pose proof (wf0_len _ (wf_0 n _ (gi_wf _ _ _ _ G'))). lia.
Qed.

Lemma claim_builds dbg n b w g : greach dbg n b w g ->
  greach (negb dbg) n b w g /\
  (forall x y, on n (x, y) -> position g (x, y) = None -> play true g (MPlay x y) = play false g (MPlay x y)) /\
  (forall m, (forall x y, m = MPlay x y -> on n (x, y)) -> try_play true g m = try_play false g m) /\
  (forall flags, legals_by true g flags = legals_by false g flags) /\
  (forall pts, NoDup pts -> (forall p, p ∈ pts -> on n p /\ position g p = None) ->
     put_handicap true g pts = put_handicap false g pts).
Proof.
  intros HG. pose proof (greach_inv _ _ _ _ _ HG) as G. split; [exact (greach_agree _ _ _ _ _ _ HG)|].
  split; [intros; eapply play_agree; eassumption|]. split; [intros; eapply try_play_agree; eassumption|].
  split; [intros; apply (legals_by_agree n), (gi_wf _ _ _ _ G)|]. intros. eapply handicap_agree; eassumption.
Qed.

(** ** Rules *)

Lemma claim_suicide dbg n b w g p c : greach dbg n b w g -> on n p -> position g p = None ->
  exists v, check_suicide dbg g (p, c) = Ok v /\ (v = true <-> suicidal n (position g) p c).
Proof. intros HG. apply check_suicide_ok, (gi_wf _ _ _ _ (greach_inv _ _ _ _ _ HG)). Qed.

Lemma claim_will_capture dbg n b w g p : greach dbg n b w g -> on n p -> position g p = None ->
  exists v, will_capture dbg g p = Ok v /\ (v = true <-> captures n (position g) p (gm_turn g)).
Proof. intros HG. apply will_capture_ok, (gi_wf _ _ _ _ (greach_inv _ _ _ _ _ HG)). Qed.

Lemma claim_simple_ko dbg n g0 x y g1 a b :
  lreach dbg n g0 -> forbids_ko (gm_rule g0) = true -> forbids_suicide (gm_rule g0) = true ->
  forbids_superko (gm_rule g0) = false ->
  on n (x, y) -> try_play dbg g0 (MPlay x y) = Ok (g1, Accepted) -> on n (a, b) ->
  try_play dbg g1 (MPlay a b) = Ok (g1, Refused EKo) <->
  position g1 (a, b) = None /\
  exists R, go_move false n (position g1) (a, b) (gm_turn g1) R /\ same_pos n R (position g0).
Proof. rewrite <- ko_bit, <- suicide_bit, <- superko_bit. apply simple_ko. Qed.

Lemma claim_ko_repetition dbg n g a b :
  lreach dbg n g -> forbids_suicide (gm_rule g) = true -> on n (a, b) ->
  try_play dbg g (MPlay a b) = Ok (g, Refused EKo) ->
  position g (a, b) = None /\ ~ suicidal n (position g) (a, b) (gm_turn g) /\
  exists R y, go_move false n (position g) (a, b) (gm_turn g) R /\ y ∈ gm_history g /\ same_pos n R (pos_of y).
Proof. rewrite <- suicide_bit. apply ko_only_repetitions. Qed.

Lemma claim_superko_partial dbg n g a b g' :
  lreach dbg n g -> forbids_superko (gm_rule g) = true -> on n (a, b) ->
  try_play dbg g (MPlay a b) = Ok (g', Accepted) -> (2 < length (gm_history g))%nat ->
  captures n (position g) (a, b) (gm_turn g) ->
  forall y, y ∈ gm_history g -> ~ same_pos n (position g') (pos_of y).
Proof. rewrite <- superko_bit. apply superko_capturing. Qed.

Lemma claim_prisoners dbg n b w g : greach dbg n b w g ->
  (N.of_nat b = N.of_nat (count n (position g) Black) + snd (gm_prisoners g))%N /\
  (N.of_nat w = N.of_nat (count n (position g) White) + fst (gm_prisoners g))%N.
Proof. intros HG. pose proof (greach_inv _ _ _ _ _ HG) as G. pose proof (gi_black _ _ _ _ G). pose proof (gi_white _ _ _ _ G). unfold position. lia. Qed.

Lemma claim_no_overflow dbg n b w g : greach dbg n b w g ->
  (fst (gm_prisoners g) + snd (gm_prisoners g) <= 23658135)%N /\
  forall k grp, chains (gm_goban g) !! k = Some (Some grp) -> (1 <= g_num_stones grp <= 361)%nat.
Proof.
  intros HG. pose proof (greach_inv _ _ _ _ _ HG) as G. pose proof (gi_wf _ _ _ _ G) as W. pose proof (wf_0 n _ W) as W0. split.
  - pose proof (gi_pris _ _ _ _ G) as H. pose proof (dslots_le (gm_goban g)). pose proof (wf0_len _ W0). unfold rem_total in H. lia.
  - intros k grp Hk. destruct (group_walk dbg n _ k grp W Hk) as (l & _ & Nd & _ & _ & Hl & H1 & Hin).
    unfold group_iter_size_hint in Hl. split; [lia|]. rewrite <- Hl. pose proof (wf_n n _ W) as Hn.
    transitivity (n * n)%nat; [|nia]. rewrite <- (seq_length (n * n) 0). apply submseteq_length, NoDup_submseteq; [exact Nd|].
    intros i Hi. apply Hin in Hi as (p & Hp & -> & _). apply elem_of_seq. pose proof (index_on n p Hp). lia.
Qed.

Lemma claim_resign dbg order g c g' ops g'' tr :
  play dbg g (MResign c) = Ok g' ->
  gm_goban g' = gm_goban g /\ gm_turn g' = gm_turn g /\ gm_passes g' = gm_passes g /\ gm_prisoners g' = gm_prisoners g /\
  gm_rule g' = gm_rule g /\ gm_handicap g' = gm_handicap g /\ gm_history g' = gm_history g /\ gm_ko_point g' = gm_ko_point g /\
  (run dbg g' ops = Ok (g'', tr) -> existsb is_resign tr = false ->
   is_over g'' = true /\ outcome order dbg g'' = Ok (Some (WinnerByResign c)) /\ game_get_winner order dbg g'' = Ok c).
Proof.
  intros E. injection E as <-. do 8 (split; [reflexivity|]). intros Hr Ht.
  pose proof (resign_final _ _ _ _ _ Hr Ht) as H. cbn [gm_outcome] in H.
  assert (O : is_over g'' = true) by (unfold is_over; rewrite H; reflexivity).
  assert (E : outcome order dbg g'' = Ok (Some (WinnerByResign c))) by (unfold outcome; rewrite O, H; reflexivity).
  split; [exact O|]. split; [exact E|]. unfold game_get_winner. rewrite E. reflexivity.
Qed.

Lemma claim_paused dbg g m :
  (gm_passes g = 2%nat <-> exists g', try_play dbg g m = Ok (g', Refused EGamePaused)) /\
  (gm_passes g = 2%nat -> try_play dbg g m = Ok (g, Refused EGamePaused)) /\
  (play dbg g MPass = Panic <-> (2 <= gm_passes g)%nat) /\
  (forall g', try_play dbg (resume g) m <> Ok (g', Refused EGamePaused)).
Proof.
  split; [split|split; [|split]].
  - intros H. exists g. apply paused_refuses, H.
  - intros [g' H]. apply (paused_only _ _ _ _ H).
  - apply paused_refuses.
  - apply pass_panics.
  - intros g' H. apply paused_only in H. discriminate.
Qed.

Lemma claim_resume dbg n b w g : greach dbg n b w g -> 
  gm_goban (resume g) = gm_goban g /\ gm_turn (resume g) = gm_turn g /\ gm_prisoners (resume g) = gm_prisoners g /\
  gm_outcome (resume g) = gm_outcome g /\ gm_rule (resume g) = gm_rule g /\ gm_handicap (resume g) = gm_handicap g /\
  gm_history (resume g) = gm_history g /\ gm_ko_point (resume g) = gm_ko_point g /\
  exists g', try_play dbg (resume g) MPass = Ok (g', Accepted).
Proof. intros _. do 8 (split; [reflexivity|]). eexists. reflexivity. Qed.

Lemma claim_eye dbg n b w g p c : greach dbg n b w g -> on n p ->
  exists v, check_eye dbg g (p, c) = Ok v /\
    (v = true -> position g p = None /\ forall q, on n q -> adj p q -> position g q = Some c) /\
    (position g p = None -> (forall q, on n q -> adj p q \/ diag p q -> position g q = Some c) -> v = true).
Proof.
  intros HG Hp. pose proof (gi_wf _ _ _ _ (greach_inv _ _ _ _ _ HG)) as W.
  exists (eye n (position g) c p). split; [apply check_eye_ok; assumption|]. split; [apply eye_sound, Hp|].
  intros He H. pose proof (wf_n n _ W). apply eye_complete; auto; lia.
Qed.

Lemma claim_fill_eye dbg n b w g x y g' : greach dbg n b w g -> on n (x, y) ->
  try_play dbg g (MPlay x y) = Ok (g', Refused EFillEye) ->
  forbids_fill_eye (gm_rule g) = true /\ position g (x, y) = None /\
  forall q, on n q -> adj (x, y) q -> position g q = Some (gm_turn g).
Proof.
  intros HG Hp E. pose proof (greach_inv _ _ _ _ _ HG) as G. pose proof (gi_wf _ _ _ _ G) as W.
  assert (P2 : gm_passes g <> 2%nat) by (intros H; rewrite (paused_refuses _ _ _ H) in E; discriminate).
  rewrite (try_play_point dbg n g x y W Hp P2) in E. apply bind_ok in E as (e & Ec & E).
  destruct e as [e|]; [|apply bind_ok in E as (g1 & _ & E); discriminate]. injection E as _ ->.
  rewrite <- fill_eye_bit. unfold check_point in Ec.
  pose proof (contains_check Ec W (gi_hist _ _ _ _ G) Hp) as (He & _ & _ & Hf & Hv).
  rewrite (check_eye_ok dbg n g (x, y) (gm_turn g) W Hp) in Hv. injection Hv as Hv.
  split; [exact Hf|]. apply (eye_sound n _ _ _ Hp Hv).
Qed.

(** ** Scoring *)

Lemma claim_region dbg n m g p : breach dbg n m g -> on n p ->
  exists R, get_group_from_point dbg g (p, pos_of g p) = Ok R /\ NoDup R /\
    forall q c, (q, c) ∈ R <-> c = pos_of g p /\ connected n (pos_of g) p q.
Proof.
  intros H Hp. apply breach_wf in H. destruct (group_from_point_ok dbg n g p H Hp) as (R & E & Nd & HR).
  exists R. split; [exact E|]. split; [exact Nd|]. intros q c. rewrite HR. reflexivity.
Qed.

Lemma claim_territories order dbg n m g : breach dbg n m g -> (forall l, order l ≡ₚ l) ->
  (exists bt wt, get_territories order dbg g = Ok (bt, wt) /\ NoDup bt /\ NoDup wt /\
    (forall p c, (p, c) ∈ bt <-> c = None /\ owned n (pos_of g) Black p) /\
    (forall p c, (p, c) ∈ wt <-> c = None /\ owned n (pos_of g) White p)) /\
  exists tb tw, calculate_territories order dbg g = Ok (tb, tw) /\
    card (owned n (pos_of g) Black) tb /\ card (owned n (pos_of g) White) tw.
Proof.
  intros H Ho. apply breach_wf in H. split; [|apply calculate_territories_ok; assumption].
  destruct (territories_ok order dbg n g H Ho) as (bt & wt & E & N1 & N2 & H1 & H2). exists bt, wt.
  split; [exact E|]. split; [exact N1|]. split; [exact N2|]. split; intros p c; [rewrite H1|rewrite H2]; reflexivity.
Qed.

Lemma claim_not_over order dbg g : is_over g = false -> outcome order dbg g = Ok None.
Proof. intros H. unfold outcome. rewrite H. reflexivity. Qed.

Lemma claim_outcome_none order dbg g : outcome order dbg g = Ok None <-> is_over g = false.
Proof.
  split; [|apply claim_not_over]. intros H. destruct (is_over g) eqn:E; [|reflexivity]. exfalso.
  unfold outcome in H. rewrite E in H. cbn [negb] in H. destruct (gm_outcome g); [discriminate|].
  apply bind_ok in H as ([b w] & _ & H). destruct (f32_lt _ _); [discriminate|]. destruct (f32_lt _ _); discriminate.
Qed.
