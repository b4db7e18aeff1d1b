(** Ko and suicide through coordinates beyond the edge. *)
From stdpp Require Import relations sorting.
From Verif Require Import AliasSpec PlayoutSpec.
From Verif Require Import MonadFacts Struct Push Inv Bridge GameFacts RulesFacts KoFacts BoardFacts CheckFacts LegalFacts ClaimFacts BoundsFacts AliasFacts ApiFacts.
From Verif Require Import Samples SampleFacts RefuteFacts CaseFacts PlayClaims.
From Coq Require Import Lia.

Local Notation length := Datatypes.length.

(** Black has two stones on the left edge around the white stone on (2,0), whose
    capture on (2,1) starts a ko *)
Definition edge_ko : list move :=
  [MPlay 1 0; MPlay 1 1; MPlay 3 0; MPlay 3 1; MPlay 4 3; MPlay 2 2; MPlay 4 4; MPlay 2 0].

Lemma alias_retakes dbg : exists g0 g1 g2,
  lreach dbg 5 g0 /\ flag_illegal (gm_rule g0) = flag_illegal JAPANESE /\
  try_play dbg g0 (MPlay 2 1) = Ok (g1, Accepted) /\
  try_play dbg g1 (MPlay 2 0) = Ok (g1, Refused EKo) /\
  try_play dbg g1 (MPlay 1 5) = Ok (g2, Accepted) /\ same_pos 5 (position g2) (position g0).
Proof.
  destruct (legal_sampleb dbg 5 JAPANESE edge_ko (fun g => bool_decide (flag_illegal (gm_rule g) = flag_illegal JAPANESE) &&
     match try_play dbg g (MPlay 2 1) with
     | Ok (g1, Accepted) => verdict_is (try_play dbg g1 (MPlay 2 0)) (Some EKo) &&
        match try_play dbg g1 (MPlay 1 5) with
        | Ok (g2, Accepted) => forallb (fun p => bool_decide (position g2 p = position g p)) (points 5)
        | _ => false
        end
     | _ => false
     end) ltac:(lia)) as (g0 & L & F); [destruct dbg; vm_compute; reflexivity|].
  apply andb_true_iff in F as [F0 F]. apply bool_decide_eq_true in F0.
  destruct (try_play dbg g0 (MPlay 2 1)) as [[g1 []]| |] eqn:E1; try discriminate F.
  apply andb_true_iff in F as [F1 F]. apply refused_is in F1.
  destruct (try_play dbg g1 (MPlay 1 5)) as [[g2 []]| |] eqn:E2; try discriminate F.
  exists g0, g1, g2. repeat (split; [assumption|]). apply same_pos_b, F.
Qed.

Lemma alias_suicides dbg : exists g g',
  lreach dbg 3 g /\ forbids_suicide (gm_rule g) = true /\
  try_play dbg g (MPlay 2 0) = Ok (g, Refused ESuicide) /\
  try_play dbg g (MPlay 1 3) = Ok (g', Accepted) /\ ~ all_breathe 3 (position g').
Proof.
  destruct (legal_sampleb dbg 3 JAPANESE [MPlay 1 0; MPass; MPlay 2 1] (fun g => forbids_suicide (gm_rule g) && has g (2, 0) None &&
     verdict_is (try_play dbg g (MPlay 2 0)) (Some ESuicide) && bool_decide (length (chains (gm_goban g)) < 100) &&
     match try_play dbg g (MPlay 1 3) with
     | Ok (g', Accepted) => match group_of (gm_goban g') (2, 0) with Some grp => is_dead grp | None => false end
     | _ => false
     end) ltac:(lia)) as (g & L & F); [destruct dbg; vm_compute; reflexivity|].
  apply andb_true_iff in F as [F K]. bools F. apply bool_decide_eq_true in F2, F0. apply refused_is in F1.
  destruct (try_play dbg g (MPlay 1 3)) as [[g' []]| |] eqn:E; try discriminate K.
  exists g, g'. repeat (split; [assumption|]). destruct (lreach_greach _ _ _ L) as (b & w & HG).
  assert (HA : alias 3 (1, 3) (2, 0)) by (repeat split; cbn; try lia; intros [_ H]; cbn in H; lia).
  assert (HL : ~ no_slot_left g) by (unfold no_slot_left; lia).
  pose proof (proj2 (alias_verdict dbg 3 b w g 1 3 (2, 0) Accepted HG HA ltac:(lia) ltac:(lia) HL) g' E) as EP. cbn [fst snd] in EP.
  assert (On : on 3 (2, 0)) by on_.
  assert (HG' : exists b' w', greach dbg 3 b' w' g') by (eexists _, _; eapply gr_play; eassumption).
  destruct HG' as (b' & w' & HG'). pose proof (gi_wf _ _ _ _ (greach_inv _ _ _ _ _ HG')) as W'.
  destruct (group_of (gm_goban g') (2, 0)) as [grp|] eqn:Eg; [|discriminate K].
  apply (group_of_at 3 _ _ _ W') in Eg.
  apply (group_at_dead 3 _ _ _ W' On Eg) in K. intros HB. apply K, (HB (2, 0) On).
  apply (group_at_stone 3 _ _ grp W' On Eg).
Qed.

(** every verdict but [EKo] by the simple rule occurs *)
Lemma case_alias dbg : exists g b w, greach dbg 5 b w g /\ alias 5 (1, 5) (2, 0) /\ alias 5 (1, 6) (2, 1) /\ ~ no_slot_left g /\
  (exists g', try_play dbg g (MPlay 1 5) = Ok (g', Accepted)) /\ try_play dbg g (MPlay 1 6) = Ok (g, Refused EPointNotEmpty) /\
  alias 5 (2, 9) (3, 4) /\ try_play dbg g (MPlay 2 9) = Ok (g, Refused ESuicide).
Proof.
  destruct (sampleb dbg 5 JAPANESE (edge_ko ++ [MPlay 2 1]) (fun g => verdict_is (try_play dbg g (MPlay 1 5)) None &&
    verdict_is (try_play dbg g (MPlay 1 6)) (Some EPointNotEmpty) && verdict_is (try_play dbg g (MPlay 2 9)) (Some ESuicide) && bool_decide (length (chains (gm_goban g)) < 100)) ltac:(lia))
    as (g & b & w & HG & _ & F); [destruct dbg; vm_compute; reflexivity|].
  bools F. apply bool_decide_eq_true in F0. apply refused_is in F1, F2.
  assert (HL : ~ no_slot_left g) by (unfold no_slot_left; lia).
  exists g, b, w. split; [exact HG|].
  split; [repeat split; cbn; try lia; intros [_ H]; cbn in H; lia|]. split; [repeat split; cbn; try lia; intros [_ H]; cbn in H; lia|].
  split; [exact HL|]. split; [unfold verdict_is in F; destruct (try_play dbg g (MPlay 1 5)) as [[g' [|[]]]| |]; try discriminate F; eauto|].
  split; [assumption|]. split; [repeat split; cbn; try lia; intros [_ H]; cbn in H; lia|assumption].
Qed.
