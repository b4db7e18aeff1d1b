(** Every game ends, so every game has a value. *)
From stdpp Require Import relations.
From Verif Require Import StrategySpec.
From Verif Require Import MonadFacts Spec Game Builder Struct Push Inv Remove Capture Bridge GameFacts RulesFacts LegalFacts.
From Verif Require Import RectSpec RectReach RectCoord RectInv RectRemove RectCapture RectBridge RectGame RectReachFacts RectEye RectMoves RectLegal RectEnd RectSymSpec RectSymClaims RectCountScore.
From Coq Require Import Lia.

Local Notation length := Datatypes.length.
Local Open Scope nat_scope.

(** ** No game goes on for ever *)

Theorem stones_bounded dbg n b w g : Nat.divide (snd n) (fst n) -> rgreach dbg n b w g -> (N.of_nat (b + w) <= STONES_EVER)%N.
Proof.
  intros Hd HG. pose proof (rgreach_inv _ _ _ _ _ Hd HG) as G. pose proof (rgi_wf _ _ _ _ G) as W.
  destruct (rwf_n _ _ W) as ([F0 F1] & F2 & k & F3). pose proof (rstones_le n (pos_of (gm_goban g))) as St. unfold rstones in St.
  assert (snd n <= 19) by (clear -F0 F1 F2 F3; destruct k as [|k]; [lia|]; rewrite F3 in F1; cbn in F1; lia).
  assert (fst n * snd n <= 19 * 19) by (apply Nat.mul_le_mono; lia).
  pose proof (rgi_black _ _ _ _ G). pose proof (rgi_white _ _ _ _ G). pose proof (rgi_pris _ _ _ _ G) as PP.
  pose proof (dslots_le (gm_goban g)) as Hs. pose proof (wf0_len _ (rwf_0 n _ W)) as Hlen. unfold rem_total in PP. unfold STONES_EVER. lia.
Qed.

Lemma bumped c b w : fst (bump_count c (b, w)) + snd (bump_count c (b, w)) = S (b + w).
Proof. destruct c; cbn; lia. Qed.

Lemma rgreach_stone dbg n b w g x y g' : Nat.divide (snd n) (fst n) -> rgreach dbg n b w g -> ron n (x, y) ->
  try_play dbg g (MPlay x y) = Ok (g', Accepted) -> exists b' w', rgreach dbg n b' w' g' /\ b' + w' = S (b + w).
Proof.
  intros Hd HG Hp E. pose proof (rgreach_inv _ _ _ _ _ Hd HG) as G. destruct (try_play_inv _ _ _ _ _ E) as [(e & F & _)|(_ & _ & Ep)]; [discriminate|].
  destruct (raccepted_empty dbg n g x y g' (rgi_wf _ _ _ _ G) (rgi_hist _ _ _ _ G) Hp E) as (He & _).
  eexists _, _. split; [eapply rg_play; eassumption|]. apply bumped.
Qed.

Theorem games_end dbg n b w k g g' : Nat.divide (snd n) (fst n) -> rgreach dbg n b w g -> rstone_run dbg n k g g' ->
  (N.of_nat (b + w + k) <= STONES_EVER)%N.
Proof.
  intros Hd HG R. revert b w HG. induction R as [g|k g x y g1 g2 Hp E R IH|k g m e g1 g2 E R IH|k g g1 g2 E R IH|k g c g1 g2 E R IH|k g g2 R IH|k g x g2 R IH]; intros b w HG.
  - rewrite Nat.add_0_r. eapply stones_bounded; eassumption.
  - destruct (rgreach_stone _ _ _ _ _ _ _ _ Hd HG Hp E) as (b' & w' & HG' & L). specialize (IH b' w' HG'). replace (b + w + S k) with (b' + w' + k) by lia. exact IH.
  - destruct (try_play_inv _ _ _ _ _ E) as [(e' & _ & ->)|(F & _)]; [|discriminate]. apply IH, HG.
  - destruct (try_play_inv _ _ _ _ _ E) as [(e' & F & _)|(_ & _ & Ep)]; [discriminate|]. apply IH. eapply rg_pass; eassumption.
  - destruct (try_play_inv _ _ _ _ _ E) as [(e' & F & _)|(_ & _ & Ep)]; [discriminate|]. apply IH. eapply rg_resign; eassumption.
  - apply IH, rg_resume, HG.
  - apply IH, rg_komi, HG.
Qed.

(** ** Determinacy *)

Section Determined.
  Context (dbg : bool) (n : size_t).

  Definition all_moves : list move := MPass :: List.map (fun p : coord => MPlay (fst p) (snd p)) (rpoints n).

  Lemma all_moves_plain m : rplain n m -> m ∈ all_moves.
  Proof.
    destruct m as [|c|x y]; cbn [rplain]; intros H; [left|contradiction|right]. apply elem_of_list_In, in_map_iff. exists (x, y). split; [reflexivity|].
    apply elem_of_list_In, elem_of_rpoints, H.
  Qed.

  (** one of the moves does the one thing, or all of them do the other *)
  Lemma some_or_all g (A B : game -> Prop) : (forall m g', may_play dbg n g m g' -> A g' \/ B g') ->
    (exists m g', may_play dbg n g m g' /\ A g') \/ (forall m g', may_play dbg n g m g' -> B g').
  Proof.
    intros H. assert (K : forall l : list move, (exists m g', may_play dbg n g m g' /\ A g') \/ (forall (m : move) g', m ∈ l -> may_play dbg n g m g' -> B g')).
    { induction l as [|m l [IH|IH]]; [right; intros m g' Hm; inversion Hm|left; exact IH|].
      destruct (try_play dbg g m) as [[g1 [|e]]| |] eqn:E.
      - destruct m as [|c|x y].
        + destruct (H MPass g1 (conj I E)) as [HA|HB]; [left; exists MPass, g1; split; [split; [exact I|exact E]|exact HA]|]. right.
          intros m' g' Hm M. apply elem_of_cons in Hm as [->|Hm]; [|eapply IH; eassumption]. destruct M as [_ M]. congruence.
        + right. intros m' g' Hm M. apply elem_of_cons in Hm as [->|Hm]; [|eapply IH; eassumption]. destruct M as [[] _].
        + destruct (decide (ron n (x, y))) as [Hp|Hp].
          * destruct (H (MPlay x y) g1 (conj Hp E)) as [HA|HB]; [left; exists (MPlay x y), g1; split; [split; [exact Hp|exact E]|exact HA]|]. right.
            intros m' g' Hm M. apply elem_of_cons in Hm as [->|Hm]; [|eapply IH; eassumption]. destruct M as [_ M]. congruence.
          * right. intros m' g' Hm M. apply elem_of_cons in Hm as [->|Hm]; [|eapply IH; eassumption]. destruct M as [M _]. contradiction.
      - right. intros m' g' Hm M. apply elem_of_cons in Hm as [->|Hm]; [|eapply IH; eassumption]. destruct M as [_ M]. congruence.
      - right. intros m' g' Hm M. apply elem_of_cons in Hm as [->|Hm]; [|eapply IH; eassumption]. destruct M as [_ M]. congruence.
      - right. intros m' g' Hm M. apply elem_of_cons in Hm as [->|Hm]; [|eapply IH; eassumption]. destruct M as [_ M]. congruence. }
    destruct (K all_moves) as [K1|K1]; [left; exact K1|right]. intros m g' M. apply (K1 m g'); [|exact M]. apply all_moves_plain, M.
  Qed.

  Lemma may_play_reach b w g m g' : Nat.divide (snd n) (fst n) -> rgreach dbg n b w g -> may_play dbg n g m g' ->
    exists b' w', rgreach dbg n b' w' g' /\ (b' + w' = S (b + w) \/ b' + w' = b + w /\ gm_passes g' = S (gm_passes g)).
  Proof.
    intros Hd HG [Hm E]. destruct m as [|c|x y]; [|contradiction|].
    - exists b, w. destruct (try_play_inv _ _ _ _ _ E) as [(e & F & _)|(_ & _ & Ep)]; [discriminate|]. split; [eapply rg_pass; eassumption|]. right. split; [reflexivity|].
      unfold play in Ep. destruct (gm_passes g <? 2); [|discriminate]. cbn [assert_ bind] in Ep. injection Ep as <-. reflexivity.
    - destruct (rgreach_stone _ _ _ _ _ _ _ _ Hd HG Hm E) as (b' & w' & HG' & L). exists b', w'. auto.
  Qed.

  Theorem determined b w g c (P : game -> Prop) : Nat.divide (snd n) (fst n) -> rgreach dbg n b w g ->
    (forall h b' w', rgreach dbg n b' w' h -> is_over h = true -> P h \/ ~ P h) ->
    forces dbg n c P g \/ forces dbg n (opp c) (fun h => ~ P h) g.
  Proof.
    intros Hd HG HP.
    assert (K : forall M b w g, rgreach dbg n b w g -> ((STONES_EVER - N.of_nat (b + w)) * 3 + N.of_nat (2 - gm_passes g) < M)%N ->
      forces dbg n c P g \/ forces dbg n (opp c) (fun h => ~ P h) g).
    { clear b w g HG. intros M. induction M as [|M IH] using N.peano_ind; intros b w g HG HM; [lia|].
      destruct (is_over g) eqn:Ov.
      { destruct (HP g b w HG Ov) as [Y|Y]; [left|right]; apply fo_over; assumption. }
      assert (Step : forall m g', may_play dbg n g m g' -> forces dbg n c P g' \/ forces dbg n (opp c) (fun h => ~ P h) g').
      { intros m g' Hm. destruct (may_play_reach b w g m g' Hd HG Hm) as (b' & w' & HG' & L). apply (IH b' w' g' HG').
        pose proof (stones_bounded _ _ _ _ _ Hd HG') as SB. pose proof (rgi_passes _ _ _ _ (rgreach_inv _ _ _ _ _ Hd HG')) as HP2.
        generalize dependent STONES_EVER. intros K SB HM. destruct L as [L|[L Lp]]; lia. }
      destruct (decide (gm_turn g = c)) as [T|T].
      - destruct (some_or_all g _ _ Step) as [(m & g' & Hm & Hf)|Hall]; [left; eapply fo_own; eassumption|].
        right. apply fo_other; [exact Ov|rewrite opp_invol; exact T|exact Hall].
      - assert (T' : gm_turn g = opp c) by (destruct (gm_turn g), c; try reflexivity; contradiction).
        destruct (some_or_all g (forces dbg n (opp c) (fun h => ~ P h)) (forces dbg n c P)) as [(m & g' & Hm & Hf)|Hall].
        { intros m g' Hm. destruct (Step m g' Hm); auto. }
        + right. eapply fo_own; eassumption.
        + left. apply fo_other; assumption. }
    eapply K; [exact HG|]. apply N.lt_succ_diag_r.
  Qed.

  Theorem not_both c (P Q : game -> Prop) g : (forall h, P h -> Q h -> False) -> forces dbg n c P g -> ~ forces dbg n (opp c) Q g.
  Proof.
    intros HPQ F. induction F as [g Ov HP|g m g' Ov T Hm F IH|g Ov T F IH]; intros F'; inversion F' as [g0 Ov' HQ|g0 m' g1 Ov' T' Hm' F''|g0 Ov' T' F'']; subst; try congruence.
    - eapply HPQ; eassumption.
    - exfalso. match goal with H : _ = opp _ |- _ => revert H end. destruct (gm_turn g); discriminate.
    - apply IH, (F'' m g' Hm).
    - apply (IH m' g1 Hm' F'').
    - exfalso. rewrite T in T'. destruct c; discriminate.
  Qed.

  Lemma forces_mono b w c (P Q : game -> Prop) g : Nat.divide (snd n) (fst n) -> rgreach dbg n b w g ->
    (forall h b' w', rgreach dbg n b' w' h -> is_over h = true -> P h -> Q h) -> forces dbg n c P g -> forces dbg n c Q g.
  Proof.
    intros Hd HG HPQ F. revert b w HG. induction F as [g Ov HP|g m g' Ov T Hm F IH|g Ov T F IH]; intros b w HG.
    - apply fo_over; [exact Ov|]. eapply HPQ; eassumption.
    - destruct (may_play_reach b w g m g' Hd HG Hm) as (b' & w' & HG' & _). eapply fo_own; try eassumption. eapply IH, HG'.
    - apply fo_other; [exact Ov|exact T|]. intros m g' Hm. destruct (may_play_reach b w g m g' Hd HG Hm) as (b' & w' & HG' & _). eapply IH; eassumption.
  Qed.
End Determined.

(** ** The value of a game *)

Lemma outcome_over dbg n b w g : Nat.divide (snd n) (fst n) -> rgreach dbg n b w g -> is_over g = true ->
  exists e, forall order, (forall l, order l ≡ₚ l) -> outcome order dbg g = Ok (Some e).
Proof.
  intros Hd HG Ov.
  assert (A : rlook_alike n g g) by (constructor; [intros q _; reflexivity|reflexivity..|induction (gm_history g); constructor; [intros q _; reflexivity|assumption]]).
  assert (R : forall l : list point, l ≡ₚ l) by reflexivity.
  destruct (ralike_score_any n (fun l => l) (fun l => l) dbg dbg b w b w g g 0 Hd HG HG R R A) as (_ & o & _ & _ & Eo & _).
  assert (Eo' := Eo). unfold outcome in Eo'. rewrite Ov in Eo'. cbn [negb] in Eo'.
  assert (exists e, o = Some e) as [e ->].
  { destruct (gm_outcome g) as [e|]; [exists e; congruence|]. apply bind_ok in Eo' as ([x y] & _ & Eo').
    destruct (f32_lt _ _); [|destruct (f32_lt _ _)]; eexists; symmetry; apply (f_equal (fun r => match r with Ok v => v | _ => None end)) in Eo'; exact Eo'. }
  exists e. intros order Ho. destruct (ralike_score_any n (fun l => l) order dbg dbg b w b w g g 0 Hd HG HG R Ho A) as (_ & o' & _ & _ & E1 & E2). congruence.
Qed.

Lemma won_or dbg n b w c g : Nat.divide (snd n) (fst n) -> rgreach dbg n b w g -> is_over g = true ->
  (won dbg c g \/ ~ won dbg c g) /\ (~ won dbg c g -> not_lost dbg (opp c) g) /\ (won dbg c g -> not_lost dbg (opp c) g -> False).
Proof.
  intros Hd HG Ov. destruct (outcome_over _ _ _ _ _ Hd HG Ov) as (e & He). 
  assert (K : won dbg c g <-> endgame_winner e = Some c).
  { split; [intros H|intros H order Ho; exists e; auto]. destruct (H (fun l => l) (fun l => Permutation_refl l)) as (e' & E & H'). rewrite He in E by reflexivity. congruence. }
  rewrite K. split; [|split].
  - destruct (endgame_winner e) as [d|]; [|right; discriminate]. destruct (decide (d = c)) as [->|]; [left; reflexivity|right; congruence].
  - intros H order Ho. exists e. split; [apply He, Ho|]. rewrite opp_invol. exact H.
  - intros H H'. destruct (H' (fun l => l) (fun l => Permutation_refl l)) as (e' & E & X). rewrite He in E by reflexivity. injection E as <-. rewrite opp_invol in X. contradiction.
Qed.

Theorem game_value dbg n b w g : Nat.divide (snd n) (fst n) -> rgreach dbg n b w g ->
  (forall c, forces dbg n c (won dbg c) g \/ forces dbg n (opp c) (not_lost dbg (opp c)) g) /\
  (forall c, ~ (forces dbg n c (won dbg c) g /\ forces dbg n (opp c) (not_lost dbg (opp c)) g)) /\
  (forces dbg n Black (won dbg Black) g \/ forces dbg n White (won dbg White) g \/
   forces dbg n Black (not_lost dbg Black) g /\ forces dbg n White (not_lost dbg White) g).
Proof.
  intros Hd HG.
  assert (A : forall c, forces dbg n c (won dbg c) g \/ forces dbg n (opp c) (not_lost dbg (opp c)) g).
  { intros c. destruct (determined dbg n b w g c (won dbg c) Hd HG) as [H|H]; [|left; exact H|right].
    - intros h b' w' HH Ov. apply (won_or dbg n b' w' c h Hd HH Ov).
    - revert H. apply (forces_mono dbg n b w (opp c) _ _ g Hd HG). intros h b' w' HH Ov. apply (won_or dbg n b' w' c h Hd HH Ov). }
  split; [exact A|]. split.
  - intros c [H1 H2]. revert H2. apply (not_both dbg n c (won dbg c)); [|exact H1]. intros h X Y.
    destruct (X (fun l => l) (fun l => Permutation_refl l)) as (e & E & We). destruct (Y (fun l => l) (fun l => Permutation_refl l)) as (e' & E' & We').
    rewrite E in E'. injection E' as <-. rewrite opp_invol in We'. contradiction.
  - destruct (A Black) as [H|H]; [left; exact H|]. destruct (A White) as [H'|H']; [right; left; exact H'|]. right. right. split; assumption.
Qed.
