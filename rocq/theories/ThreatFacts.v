(** A ko threat and its answer lift the ban of the ko. *)
From stdpp Require Import relations.
From Verif Require Import LocalSpec OrderSpec VerdictSpec.
From Verif Require Import MonadFacts Spec Game Builder Struct Push Inv Remove Capture Bridge GameFacts RulesFacts LegalFacts LegalsFacts CheckFacts ClaimFacts LongFacts SymFacts SymGame SymScore ScoreFacts ReprFacts RectCount RectCoord RectBridge RectRules RectKo RectBoard RectCheck RectEye RectVerdict.
From Verif Require Import RectScore RectSpec RectReach RectVerdictSpec RectTableSpec RectInv RectGame RectMoves RectLegal RectTable RectReachFacts RectSymFacts RectSymGame RectSymClaims RectCases PastFacts OrderFacts VerdictFacts LocalFacts FarFacts FarThree.
From Coq Require Import Lia.

Local Notation length := Datatypes.length.
Local Open Scope nat_scope.

Lemma ko_refused dbg n b w g x y g0 : Nat.divide (snd n) (fst n) -> rgreach dbg n b w g -> ron n (x, y) -> ~ no_slot_left g -> forbids_superko (gm_rule g) = false ->
  try_play dbg g (MPlay x y) = Ok (g0, Refused EKo) ->
  position g (x, y) = None /\ ~ (no_suicide (flag_illegal (gm_rule g)) = true /\ rsuicidal n (position g) (x, y) (gm_turn g)).
Proof.
  intros Hd HG Hp HL Fs E. destruct (proj1 (rverdict_exact dbg n b w g x y (Refused EKo) Hd HG Hp HL) (ex_intro _ g0 E)) as (before & R & after & X & HR & HB).
  unfold rreasons, rpoint_reasons in X.
  destruct before as [|b0 [|b1 [|b2 [|b3 [|b4 [|b5 before]]]]]]; cbn [app] in X.
  - discriminate X.
  - injection X. discriminate.
  - injection X. discriminate.
  - injection X as <- <- <- _ _. apply Forall_cons_1 in HB as [_ HB]. apply Forall_cons_1 in HB as [H1 HB]. apply Forall_cons_1 in HB as [H2 _]. cbn [snd t_pos t_turn table_of] in H1, H2.
    split; [|exact H2]. change (pos_of (gm_goban g)) with (position g) in H1. destruct (position g (x, y)); [destruct H1; discriminate|reflexivity].
  - injection X. discriminate.
  - injection X as _ _ _ _ _ <- _. destruct HR as [F _]. unfold forbids_superko in Fs. unfold no_superko in F. congruence.
  - exfalso. injection X as _ _ _ _ _ _ X. destruct before; discriminate X.
Qed.

Theorem ko_threat dbg n b w g x y xz yz xa ya g0 ga gb : Nat.divide (snd n) (fst n) -> rgreach dbg n b w g -> ron n (x, y) -> ron n (xz, yz) -> ron n (xa, ya) ->
  forbids_fill_eye (gm_rule g) = false -> forbids_superko (gm_rule g) = false -> (N.of_nat (b + w + 2) < 65535)%N ->
  try_play dbg g (MPlay x y) = Ok (g0, Refused EKo) ->
  far_apart n (position g) (xz, yz) (x, y) -> try_play dbg g (MPlay xz yz) = Ok (ga, Accepted) ->
  far_apart n (position ga) (xa, ya) (x, y) -> try_play dbg ga (MPlay xa ya) = Ok (gb, Accepted) ->
  exists g', try_play dbg gb (MPlay x y) = Ok (g', Accepted).
Proof.
  intros Hd HG Hp Hz Ha Fe Fs L E0 F1 E1 F2 E2. pose proof (rfew dbg n b w g Hd HG ltac:(lia)) as L0.
  destruct (ko_refused dbg n b w g x y g0 Hd HG Hp L0 Fs E0) as (Ep & NS).
  destruct (stone_facts dbg n b w g xz yz ga Hd HG Hz E1) as (Ez & HGa & M1 & _ & Pa & _ & Ta & Ra).
  destruct (stone_facts dbg n _ _ ga xa ya gb Hd HGa Ha E2) as (Ea & HGb & M2 & _ & Pb & _ & Tb & Rb).
  pose proof (alike_trans _ _ _ _ _ (far_alike _ _ _ _ _ _ _ Hz Ez M1 F1) (far_alike _ _ _ _ _ _ _ Ha Ea M2 F2)) as A.
  pose proof (near_empty n _ _ _ A Hp Ep) as Ep'. assert (Tg : gm_turn gb = gm_turn g) by (rewrite Tb, Ta; destruct (gm_turn g); reflexivity). assert (Rg : gm_rule gb = gm_rule g) by congruence.
  rewrite Ta in HGb. pose proof (rfew dbg n _ _ gb Hd HGb ltac:(destruct (gm_turn g); cbn [bump_count fst snd opp]; lia)) as Lb.
  apply (rverdict_exact dbg n _ _ gb x y Accepted Hd HGb Hp Lb). rewrite Rg.
  unfold rjudged, first_reason, rreasons, rpoint_reasons. repeat apply Forall_cons_2; try apply Forall_nil_2; cbn [snd t_pos t_turn t_passes table_of].
  - rewrite Pb. discriminate.
  - intros X. apply X. exact Ep'.
  - intros [X Y]. apply NS. split; [exact X|]. rewrite Tg in Y. apply (near_suicidal n _ _ (x, y) (gm_turn g) A Hp Ep), Y.
  - intros (_ & K & _). cbn [t_ko table_of] in K. destruct (ko_near dbg n _ _ ga xa ya gb _ Hd HGa Ha E2 K) as [_ N]. apply (F2 (x, y) Hp N). left. reflexivity.
  - intros (X & _). unfold forbids_fill_eye in Fe. unfold no_fill_eye in X. congruence.
  - intros (X & _). unfold forbids_superko in Fs. unfold no_superko in X. congruence.
Qed.
