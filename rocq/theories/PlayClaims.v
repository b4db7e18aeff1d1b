(** Playouts, [dead_stones], verdicts and unusual komi: statements for the property
    files, with concrete cases. *)
From stdpp Require Import relations sorting strings.
From Verif Require Import PlayoutSpec VerdictSpec ScoreSpec.
From Verif Require Import LongFacts Struct Push Inv Bridge MonadFacts GameFacts RulesFacts BoardFacts EyeFacts EyeExact LegalFacts FloatingFacts PlayoutFacts DeadFacts VerdictFacts.
From Verif Require Export CaseFacts.
From Coq Require Import Lia.

Local Notation length := Datatypes.length.
Open Scope nat_scope.

Lemma claim_playout dbg n b w g shuffles fuel i : greach dbg n b w g -> (forall i l, shuffles i l ≡ₚ l) -> (47316994 < N.of_nat fuel)%N ->
  (exists g', playout fuel i shuffles dbg g = Ok g' /\ rtc (playout_step dbg n) g g' /\ is_over g' = true) \/
  (playout fuel i shuffles dbg g = Panic /\ exists g1, rtc (playout_step dbg n) g g1 /\ no_slot_left g1).
Proof. intros HG Hs HF. apply (playout_spec dbg n shuffles Hs fuel i b w g HG). pose proof (left_max b w g). lia. Qed.

Lemma claim_playout_legal dbg n g g' : lreach dbg n g -> rtc (playout_step dbg n) g g' -> lreach dbg n g'.
Proof. apply steps_lreach. Qed.

Lemma claim_playout_complete dbg n b w g g' i : greach dbg n b w g -> rtc (playout_step dbg n) g g' -> is_over g' = true ->
  exists shuffles fuel, (forall j l, shuffles j l ≡ₚ l) /\ playout fuel i shuffles dbg g = Ok g'.
Proof. intros HG R HO. exact (playout_complete dbg n g g' R b w HG HO i). Qed.

(** a group without any eye is not reported as floating *)
Lemma floating_missed dbg : exists g b w,
  greach dbg 3 b w g /\ group_no (gm_goban g) (1, 1) = Some 0 /\
  (forall p c, on 3 p -> ~ eye_shape 3 (position g) c p) /\ get_floating_stones dbg g = Ok [].
Proof.
  destruct (floating_wrong dbg) as (g & b & w & HG & Hn & HE & HF). exists g, b, w. split; [exact HG|]. split; [exact Hn|]. split; [|exact HF].
  intros p c Hp. destruct (claim_eye_exact dbg 3 b w g p c HG Hp) as (v & E & Hv). rewrite <- Hv. rewrite (HE p c Hp) in E. congruence.
Qed.

(** ** Komi *)

(** half the machine epsilon *)
Definition TINY_KOMI : rule := mkRule (f32_make 1 (-24)) (flag_illegal JAPANESE) (flag_score JAPANESE).
Definition NAN_KOMI : rule := mkRule S754_nan (flag_illegal JAPANESE) (flag_score JAPANESE).

Lemma tiny_komi dbg : exists g a b, lreach dbg 9 g /\ gm_passes g = 2 /\ is_f32 (komi g) /\
  calculate_score (fun l => l) dbg g = Ok (a, b) /\ f32_lt a b = true /\ outcome (fun l => l) dbg g = Ok (Some Draw).
Proof.
  destruct (legal_sampleb dbg 9 TINY_KOMI [MPass; MPass] (fun g => bool_decide (gm_passes g = 2) && bool_decide (komi g = f32_make 1 (-24)) &&
    match calculate_score (fun l => l) dbg g with Ok (a, b) => f32_lt a b | _ => false end &&
    match outcome (fun l => l) dbg g with Ok (Some Draw) => true | _ => false end) ltac:(lia)) as (g & L & F).
  { destruct dbg; vm_compute; reflexivity. }
  bools F. apply bool_decide_eq_true in F, F2. destruct (calculate_score _ dbg g) as [[x y]| |] eqn:E; try discriminate.
  exists g, x, y. split; [exact L|]. split; [exact F|]. split; [rewrite F2; vm_compute; reflexivity|]. split; [exact E|]. split; [assumption|].
  destruct (outcome _ dbg g) as [[[| | | |]|]| |]; try discriminate. reflexivity.
Qed.

Lemma nan_komi dbg : exists g, lreach dbg 9 g /\ gm_passes g = 2 /\ is_f32 (komi g) /\
  outcome (fun l => l) dbg g = Ok (Some (WinnerByScore White S754_nan)).
Proof.
  destruct (legal_sampleb dbg 9 NAN_KOMI [MPlay 4 4; MPass; MPass] (fun g => bool_decide (gm_passes g = 2) && bool_decide (komi g = S754_nan) &&
    match outcome (fun l => l) dbg g with Ok (Some (WinnerByScore White S754_nan)) => true | _ => false end) ltac:(lia)) as (g & L & F).
  { destruct dbg; vm_compute; reflexivity. }
  bools F. apply bool_decide_eq_true in F, F1. exists g. split; [exact L|]. split; [exact F|]. split; [rewrite F1; reflexivity|].
  destruct (outcome _ dbg g) as [[[[] []| | | |]|]| |]; try discriminate. reflexivity.
Qed.

(** ** Cases *)

(** turning the list a little further at each move *)
Definition wheel (i : nat) (l : list coord) : list coord := drop (i mod length l) l ++ take (i mod length l) l.
Lemma wheel_perm i l : wheel i l ≡ₚ l.
Proof. unfold wheel. rewrite Permutation_app_comm, take_drop. reflexivity. Qed.

Lemma case_playout dbg : exists g g', lreach dbg 3 g /\ (exists b w, greach dbg 3 b w g) /\ (forall i l, wheel i l ≡ₚ l) /\
  (47316994 < N.of_nat (N.to_nat 47316995))%N /\ is_over g = false /\ gm_passes g = 0 /\ gm_outcome g = None /\ playout 60 0 wheel dbg g = Ok g' /\
  rtc (playout_step dbg 3) g g' /\ is_over g' = true /\ position g' (1, 1) = Some Black /\ position g' (0, 2) = None.
Proof.
  destruct (legal_sampleb dbg 3 JAPANESE [] (fun g => negb (is_over g) && (gm_passes g =? 0) && match playout 60 0 wheel dbg g with Ok g' => is_over g' && has g' (1, 1) (Some Black) && has g' (0, 2) None | _ => false end) ltac:(lia)) as (g & L & F).
  { destruct dbg; vm_compute; reflexivity. }
  bools F. destruct (playout 60 0 wheel dbg g) as [g'| |] eqn:E; try discriminate. bools F0. apply bool_decide_eq_true in F3, F2. apply Nat.eqb_eq in F1. apply negb_true_iff in F.
  destruct (lreach_greach _ _ _ L) as (b & w & HG). exists g, g'. split; [exact L|]. split; [eauto|]. split; [exact wheel_perm|].
  split; [rewrite N2Nat.id; reflexivity|]. split; [exact F|]. split; [exact F1|]. split; [apply (not_over g F)|]. split; [exact E|].
  assert (R : rtc (playout_step dbg 3) g g').
  { assert (K : forall fuel i b w g g', greach dbg 3 b w g -> playout fuel i wheel dbg g = Ok g' -> rtc (playout_step dbg 3) g g').
    { clear. induction fuel as [|fuel IH]; intros i b w g g' HG E.
      - cbn [playout] in E. destruct (is_over g); [injection E as ->; apply rtc_refl|discriminate].
      - rewrite playout_unfold in E. destruct (is_over g) eqn:HO; [injection E as ->; apply rtc_refl|].
        destruct (fast_step dbg 3 wheel wheel_perm b w g i HG HO) as [[E' _]|(g1 & b1 & w1 & E' & HS & HG1 & _)]; rewrite E' in E; [discriminate|].
        cbn [bind] in E. eapply rtc_l; [exact HS|]. exact (IH (S i) b1 w1 g1 g' HG1 E). }
    exact (K 60 0 b w g g' HG E). }
  auto.
Qed.

Lemma case_dead dbg : exists g b w, greach dbg 7 b w g /\ get_floating_stones dbg g = Ok [0] /\ is_over g = false /\
  answers dbg 7 (fun _ _ ms => Ok (hd MPass ms)) g /\ (47316994 < N.of_nat (N.to_nat 47316995))%N.
Proof.
  destruct (sampleb dbg 7 JAPANESE (flat_map (fun p : coord => [MPlay (fst p) (snd p); MPass]) [(1, 0); (1, 1); (0, 1); (1, 2); (1, 3); (0, 3); (1, 4); (1, 5); (0, 5); (1, 6)])
    (fun g => match get_floating_stones dbg g with Ok [0] => negb (is_over g) | _ => false end) ltac:(lia)) as (g & b & w & HG & _ & F); [destruct dbg; vm_compute; reflexivity|].
  destruct (get_floating_stones dbg g) as [[|[|] [|]]| |] eqn:E; try discriminate. apply negb_true_iff in F.
  exists g, b, w. split; [exact HG|]. split; [exact E|]. split; [exact F|]. split; [|rewrite N2Nat.id; reflexivity].
  intros i h ms _ HO El. right. exists (hd MPass ms). split; [reflexivity|]. unfold legals_moves in El. apply bind_ok in El as (l & _ & El). rewrite HO in El. injection El as <-. destruct l; left.
Qed.

Lemma case_dead_over dbg : exists g b w, greach dbg 7 b w g /\ get_floating_stones dbg g = Ok [0] /\ is_over g = true.
Proof.
  destruct (sampleb dbg 7 JAPANESE (flat_map (fun p : coord => [MPlay (fst p) (snd p); MPass]) [(1, 0); (1, 1); (0, 1); (1, 2); (1, 3); (0, 3); (1, 4); (1, 5); (0, 5); (1, 6)] ++ [MPass])
    (fun g => match get_floating_stones dbg g with Ok [0] => is_over g | _ => false end) ltac:(lia)) as (g & b & w & HG & _ & F); [destruct dbg; vm_compute; reflexivity|].
  destruct (get_floating_stones dbg g) as [[|[|] [|]]| |] eqn:E; try discriminate. exists g, b, w. auto.
Qed.

(** a true eye, a false eye and a point that is no eye *)
Lemma case_eyes dbg : exists g b w, greach dbg 5 b w g /\ on 5 (0, 0) /\ on 5 (4, 4) /\ on 5 (2, 2) /\
  check_eye dbg g ((0, 0), Black) = Ok true /\ check_eye dbg g ((4, 4), Black) = Ok false /\ check_eye dbg g ((2, 2), Black) = Ok false /\
  position g (4, 3) = Some Black /\ position g (3, 4) = Some Black /\ position g (3, 3) = Some White.
Proof.
  destruct (sampleb dbg 5 JAPANESE [MPlay 0 1; MPass; MPlay 1 0; MPass; MPlay 1 1; MPass; MPlay 4 3; MPlay 3 3; MPlay 3 4; MPass]
    (fun g => ok_is (check_eye dbg g ((0, 0), Black)) true && ok_is (check_eye dbg g ((4, 4), Black)) false && ok_is (check_eye dbg g ((2, 2), Black)) false &&
       has g (4, 3) (Some Black) && has g (3, 4) (Some Black) && has g (3, 3) (Some White)) ltac:(lia)) as (g & b & w & HG & _ & F); [destruct dbg; vm_compute; reflexivity|].
  bools F. apply ok_is_eq in F, F4, F3. apply bool_decide_eq_true in F2, F1, F0. exists g, b, w. repeat (split; [assumption || on_|]). assumption.
Qed.

(** every verdict occurs: ko *)
Lemma case_verdict_ko dbg : exists g b w, greach dbg 9 b w g /\ on 9 (1, 1) /\ ~ no_slot_left g /\ try_play dbg g (MPlay 1 1) = Ok (g, Refused EKo) /\
  judged 9 (flag_illegal (gm_rule g)) (table_of g) (1, 1) (Refused EKo).
Proof.
  destruct (sampleb dbg 9 JAPANESE ko_moves (fun g => verdict_is (try_play dbg g (MPlay 1 1)) (Some EKo) && (length (chains (gm_goban g)) <? 100)) ltac:(lia))
    as (g & b & w & HG & _ & F); [destruct dbg; vm_compute; reflexivity|].
  bools F. apply refused_is in F. apply Nat.ltb_lt in F0. assert (HL : ~ no_slot_left g) by (unfold no_slot_left; lia).
  exists g, b, w. split; [exact HG|]. split; [on_|]. split; [exact HL|]. split; [exact F|].
  apply (verdict_exact dbg 9 b w g 1 1 (Refused EKo) HG ltac:(on_) HL). eauto.
Qed.

(** every verdict occurs: suicide *)
Lemma case_verdict_suicide dbg : exists g b w, greach dbg 3 b w g /\ on 3 (0, 0) /\ ~ no_slot_left g /\ try_play dbg g (MPlay 0 0) = Ok (g, Refused ESuicide) /\
  judged 3 (flag_illegal (gm_rule g)) (table_of g) (0, 0) (Refused ESuicide).
Proof.
  destruct (sampleb dbg 3 JAPANESE [MPlay 0 1; MPass; MPlay 1 0] (fun g => verdict_is (try_play dbg g (MPlay 0 0)) (Some ESuicide) && (length (chains (gm_goban g)) <? 100)) ltac:(lia))
    as (g & b & w & HG & _ & F); [destruct dbg; vm_compute; reflexivity|].
  bools F. apply refused_is in F. apply Nat.ltb_lt in F0. assert (HL : ~ no_slot_left g) by (unfold no_slot_left; lia).
  exists g, b, w. split; [exact HG|]. split; [on_|]. split; [exact HL|]. split; [exact F|].
  apply (verdict_exact dbg 3 b w g 0 0 (Refused ESuicide) HG ltac:(on_) HL). eauto.
Qed.

Lemma playout_panics dbg : exists g fuel shuffles, lreach dbg 2 g /\ is_over g = false /\ (forall i l, shuffles i l ≡ₚ l) /\
  playout fuel 0 shuffles dbg g = Panic.
Proof. destruct (playout_may_panic dbg) as (g & fuel & H). exists g, fuel, cycle_shuffles. exact H. Qed.

Lemma case_no_slot dbg : exists g b w x y, greach dbg 2 b w g /\ on 2 (x, y) /\ try_play dbg g (MPlay x y) = Panic.
Proof.
  destruct (LongFacts.long_game_panics dbg) as (g & x & y & L & Hp & E). destruct (lreach_greach _ _ _ L) as (b & w & HG).
  exists g, b, w, x, y. auto.
Qed.

Lemma playout_stone_passes dbg g x y g' : try_play dbg g (MPlay x y) = Ok (g', Accepted) -> gm_passes g' = 0 /\ gm_outcome g' = gm_outcome g.
Proof.
  unfold try_play. destruct (gm_passes g =? 2)%nat; [discriminate|]. intros H.
  apply bind_ok in H as (c & _ & H). destruct (negb _); [discriminate|]. apply bind_ok in H as ([e|] & _ & H); [discriminate|].
  apply bind_ok in H as (g1 & H & E). injection E as <-. unfold play in H.
  apply bind_ok in H as (h & _ & H). apply bind_ok in H as ([[gb d] a] & _ & H). apply bind_ok in H as ([[gb' pr] ko] & _ & H). injection H as <-. auto.
Qed.

Lemma playout_pass_inv dbg g g' : try_play dbg g MPass = Ok (g', Accepted) ->
  gm_passes g' = S (gm_passes g) /\ gm_outcome g' = gm_outcome g /\ gm_goban g' = gm_goban g /\ gm_turn g' = opp (gm_turn g).
Proof.
  intros H. apply try_pass_inv in H. unfold play in H. apply bind_ok in H as (u & _ & H). injection H as <-. auto.
Qed.

(** a pass of a playout *)
Definition stuck (dbg : bool) (n : nat) (g g' : game) : Prop :=
  try_play dbg g MPass = Ok (g', Accepted) /\ exists l, legals dbg g = Ok l /\ forall p, p ∈ l -> eye_shape n (position g) (gm_turn g) p.

Lemma playout_settled dbg n g g' : gm_passes g = 0 -> gm_outcome g = None -> rtc (playout_step dbg n) g g' -> is_over g' = true ->
  exists g1 g2 l1 l2, rtc (playout_step dbg n) g g1 /\ gm_turn g2 = opp (gm_turn g1) /\ position g1 = position g' /\ position g2 = position g' /\
    legals dbg g1 = Ok l1 /\ (forall p, p ∈ l1 -> eye_shape n (position g') (gm_turn g1) p) /\ try_play dbg g1 MPass = Ok (g2, Accepted) /\
    legals dbg g2 = Ok l2 /\ (forall p, p ∈ l2 -> eye_shape n (position g') (gm_turn g2) p) /\ try_play dbg g2 MPass = Ok (g', Accepted).
Proof.
  intros H0 Hn H Hover.
  assert (I : gm_outcome g' = None /\ (gm_passes g' = 0 \/ (gm_passes g' = 1 /\ exists g1, rtc (playout_step dbg n) g g1 /\ stuck dbg n g1 g') \/
     exists g1 g2, rtc (playout_step dbg n) g g1 /\ stuck dbg n g1 g2 /\ stuck dbg n g2 g')).
  { clear Hover. revert g' H. refine (rtc_ind_r _ g _ _); [auto|]. intros x y Hx Hs IH. destruct IH as [Ho IH]. destruct Hs as [a b Hv Hp Ht _|l Hv Hl He Ht].
    - apply playout_stone_passes in Ht as [E1 E2]. split; [congruence|left; exact E1].
    - pose proof (playout_pass_inv dbg x y Ht) as (E1 & E2 & _ & _). split; [congruence|]. assert (S : stuck dbg n x y) by (split; eauto).
      destruct IH as [E|[(E & g1 & R & S1)|(g1 & g2 & R & S1 & S2)]].
      + right. left. split; [congruence|eauto].
      + right. right. eauto.
      + destruct (not_over x Hv) as [_ L]. destruct S1 as [T1 _], S2 as [T2 _].
        apply playout_pass_inv in T1 as [P1 _], T2 as [P2 _]. lia. }
  destruct I as [Ho [E|[(E & _)|(g1 & g2 & R & (T1 & l1 & L1 & F1) & (T2 & l2 & L2 & F2))]]].
  - unfold is_over in Hover. rewrite Ho, E in Hover. discriminate.
  - unfold is_over in Hover. rewrite Ho, E in Hover. discriminate.
  - pose proof (playout_pass_inv _ _ _ T1) as (_ & _ & B1 & C1). pose proof (playout_pass_inv _ _ _ T2) as (_ & _ & B2 & C2).
    assert (P2 : position g2 = position g') by (unfold position; congruence). assert (P1 : position g1 = position g') by (unfold position; congruence).
    rewrite P1 in F1. rewrite P2 in F2. exists g1, g2, l1, l2. auto 12.
Qed.
