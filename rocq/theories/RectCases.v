(** What the property files say about boards that are not square, and concrete
    games for it. *)
From stdpp Require Import relations.
From Verif Require Import VerdictSpec PlayoutSpec Observe RectSpec RectVerdictSpec RectReach.
From Verif Require Import MonadFacts GameFacts LegalFacts ClaimFacts CaseFacts RectReachFacts RectGame RectVerdict RectList RectGo.
From Coq Require Import Lia.

Local Notation length := Datatypes.length.
Open Scope nat_scope.

(** on square boards the games are those of [Reach.v] *)
Theorem square_reach dbg n b w g : rgreach dbg (n, n) b w g <-> greach dbg n b w g.
Proof.
  split; induction 1.
  - eapply gr_new; eassumption.
  - eapply gr_build; eassumption.
  - eapply gr_play; eassumption.
  - eapply gr_pass; eassumption.
  - eapply gr_resign; eassumption.
  - apply gr_resume; assumption.
  - apply gr_komi; assumption.
  - eapply gr_handicap; eassumption.
  - eapply rg_new; cbn [fst snd]; eassumption.
  - eapply rg_build; cbn [fst snd]; eassumption.
  - eapply rg_play; eassumption.
  - eapply rg_pass; eassumption.
  - eapply rg_resign; eassumption.
  - apply rg_resume; assumption.
  - apply rg_komi; assumption.
  - eapply rg_handicap; eassumption.
Qed.

Lemma rfew dbg n b w g : Nat.divide (snd n) (fst n) -> rgreach dbg n b w g -> (N.of_nat (b + w) < 65535)%N -> ~ no_slot_left g.
Proof. intros Hd HG L. pose proof (rgi_chains _ _ _ _ (rgreach_inv _ _ _ _ _ Hd HG)). unfold no_slot_left. lia. Qed.

Theorem rect_verdict dbg n b w g x y v : Nat.divide (snd n) (fst n) -> rgreach dbg n b w g -> (N.of_nat (b + w) < 65535)%N -> ron n (x, y) ->
  ((exists g', try_play dbg g (MPlay x y) = Ok (g', v)) <-> rjudged n (flag_illegal (gm_rule g)) (table_of g) (x, y) v).
Proof. intros Hd HG L Hp. apply (rverdict_exact dbg n b w g x y v Hd HG Hp), (rfew _ _ _ _ _ Hd HG L). Qed.

Theorem rect_accepted dbg n b w g x y g' : Nat.divide (snd n) (fst n) -> rgreach dbg n b w g -> (N.of_nat (b + w) < 65535)%N -> ron n (x, y) ->
  try_play dbg g (MPlay x y) = Ok (g', Accepted) ->
  position g (x, y) = None /\
  rgo_move (negb (forbids_suicide (gm_rule g))) n (position g) (x, y) (gm_turn g) (position g') /\
  rgreach dbg n (fst (bump_count (gm_turn g) (b, w))) (snd (bump_count (gm_turn g) (b, w))) g'.
Proof.
  intros Hd HG L Hp E. pose proof (proj1 (rect_verdict dbg n b w g x y Accepted Hd HG L Hp) (ex_intro _ g' E)) as HJ.
  apply Forall_cons in HJ as [_ HJ]. apply Forall_cons in HJ as [HJ _]. cbn [snd t_pos table_of] in HJ.
  assert (He : position g (x, y) = None) by (destruct (position g (x, y)); [exfalso; apply HJ; discriminate|reflexivity]).
  apply try_play_inv in E as [(e & [=] & _)|(_ & _ & E)]. split; [exact He|].
  pose proof (rgreach_inv _ _ _ _ _ Hd HG) as G. split.
  - destruct (rplay_spec dbg n b w g x y G Hp He) as [[F _]|(g2 & E2 & _ & HM & _)]; [congruence|].
    rewrite E in E2. injection E2 as <-. rewrite <- suicide_bit. exact HM.
  - eapply rg_play; eassumption.
Qed.

(** 6 x 3: White takes the corner (5,0) *)
Definition tall_moves : list move := [MPlay 5 0; MPlay 5 1; MPass].

Lemma case_tall dbg : exists g b w g',
  Nat.divide 3 6 /\ 6 = 2 * 3 /\ rgreach dbg (6, 3) b w g /\ (N.of_nat (b + w) < 65535)%N /\ ron (6, 3) (4, 0) /\ position g (4, 0) = None /\
  gm_turn g = White /\ position g (5, 0) = Some Black /\ play dbg g (MPlay 4 0) = Ok g' /\ try_play dbg g (MPlay 4 0) = Ok (g', Accepted) /\ position g' (5, 0) = None /\
  position g (0, 1) = None /\ first_reason (rpoint_reasons (6, 3) (flag_illegal (gm_rule g)) (table_of g) (0, 1)) Accepted.
Proof.
  assert (Hd : Nat.divide 3 6) by (exists 2; reflexivity).
  destruct (rsample dbg 6 3 JAPANESE tall_moves) as [g|] eqn:E; [|destruct dbg; vm_compute in E; discriminate].
  assert (K : match rsample dbg 6 3 JAPANESE tall_moves with
     | Some g => has g (4, 0) None && bool_decide (gm_turn g = White) && has g (5, 0) (Some Black) && has g (0, 1) None &&
         match check_point_by dbg g (0, 1) (flag_illegal (gm_rule g)) with Ok None => true | _ => false end &&
         match try_play dbg g (MPlay 4 0) with Ok (g', Accepted) => has g' (5, 0) None | _ => false end
     | None => false end = true) by (destruct dbg; vm_compute; reflexivity).
  rewrite E in K. bools K. destruct (try_play dbg g (MPlay 4 0)) as [[g' []]| |] eqn:T; try discriminate.
  destruct (rsample_reach dbg 6 3 JAPANESE _ g ltac:(lia) ltac:(lia) E) as (b & w & HG & L). cbn in L.
  assert (L' : (N.of_nat (b + w) < 65535)%N) by lia.
  exists g, b, w, g'. split; [exact Hd|]. split; [reflexivity|]. split; [exact HG|]. split; [exact L'|]. split; [split; cbn; lia|].
  split; [exact (bool_decide_eq_true_1 _ K)|]. split; [exact (bool_decide_eq_true_1 _ K4)|]. split; [exact (bool_decide_eq_true_1 _ K3)|].
  split; [apply try_play_inv in T as [(e & [=] & _)|(_ & _ & T)]; exact T|]. split; [exact T|]. split; [exact (bool_decide_eq_true_1 _ K0)|].
  split; [exact (bool_decide_eq_true_1 _ K2)|].
  apply (rcheck_exact dbg (6, 3) b w g (0, 1) _ Accepted Hd HG); [split; cbn; lia|exact (rfew dbg (6, 3) b w g Hd HG L')|]. cbn [error_of].
  destruct (check_point_by _ _ _ _) as [[]| |]; try discriminate. reflexivity.
Qed.

Lemma case_sizes : (1 <= 6 <= 19) /\ (1 <= 3 <= 19) /\ Nat.divide 3 6 /\ (1 <= 9 <= 19) /\ ~ Nat.divide 4 9 /\ ~ Nat.divide 9 4.
Proof.
  repeat (split; [lia || (exists 2; reflexivity)|]). split; intros [k Hk]; lia.
Qed.

(** a point that can be played is not listed, and one that cannot is *)
Theorem rect_listing_refuted dbg : exists g b w l l', rgreach dbg (6, 3) b w g /\ pseudo_legals g = Ok l /\ legals dbg g = Ok l' /\
  ron (6, 3) (4, 0) /\ (exists g', try_play dbg g (MPlay 4 0) = Ok (g', Accepted)) /\ (4, 0) ∉ l /\ (4, 0) ∉ l' /\
  position g (0, 0) = Some Black /\ (0, 0) ∈ l.
Proof.
  destruct (rsample dbg 6 3 JAPANESE [MPlay 0 0]) as [g|] eqn:E; [|destruct dbg; vm_compute in E; discriminate].
  assert (K : match rsample dbg 6 3 JAPANESE [MPlay 0 0] with
     | Some g => has g (0, 0) (Some Black) && match try_play dbg g (MPlay 4 0) with Ok (g', Accepted) => true | _ => false end
     | None => false end = true) by (destruct dbg; vm_compute; reflexivity).
  rewrite E in K. bools K. destruct (try_play dbg g (MPlay 4 0)) as [[g' []]| |] eqn:T; try discriminate.
  destruct (rsample_reach dbg 6 3 JAPANESE _ g ltac:(lia) ltac:(lia) E) as (b & w & HG & L). cbn in L.
  destruct (rect_pseudo dbg (6, 3) b w g (4, 0) 2 eq_refl HG) as (l & El & _ & _ & H0).
  destruct (rect_pseudo dbg (6, 3) b w g (0, 0) 2 eq_refl HG) as (l2 & El2 & _ & H1 & _). rewrite El in El2. injection El2 as <-.
  destruct (rect_legals dbg (6, 3) b w g (4, 0) 2 eq_refl HG ltac:(lia)) as (l' & El' & _ & H2).
  pose proof (bool_decide_eq_true_1 _ K) as Hc. cbn [fst snd] in *.
  exists g, b, w, l, l'. split; [exact HG|]. split; [exact El|]. split; [exact El'|]. split; [split; cbn; lia|]. split; [eauto|].
  split; [apply times_zero, H0; lia|]. split; [apply times_zero, H2; lia|]. split; [exact Hc|].
  specialize (H1 ltac:(lia) ltac:(lia) ltac:(congruence)). destruct (decide ((0, 0) ∈ l)) as [|D]; [assumption|]. apply times_zero in D. lia.
Qed.
