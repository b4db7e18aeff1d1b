(** Concrete cases for the theorems about positions that are set up. *)
From stdpp Require Import relations.
From Verif Require Import OrderSpec Spec Observe Reach Ops Samples Game Builder MonadFacts GameFacts RefuteFacts CaseFacts.
From Verif Require Import RectCoord RectBridge RectSpec RectReach RectGo RectInv RectGame RectLegal RectSymFacts RectSymClaims PastFacts PastCases OrderCases FreeFacts FreeCases StageFacts.
From Coq Require Import Lia.
Local Notation length := Datatypes.length.
Local Open Scope nat_scope.

(** one handicap stone and three more stones *)
Definition stage_builder : builder := mkBuilder (8, 4) JAPANESE None None [(1, 1)] (Some Black) [] None [((2, 2), White); ((1, 2), Black); ((3, 2), White)].
Definition stage_ms : list move := [MPlay 1 2; MPlay 3 2; MPlay 1 1; MPlay 2 2].
Definition stage_list : list stone := [((1, 2), Black); ((3, 2), White); ((1, 1), Black); ((2, 2), White)].

Lemma case_stage dbg : exists g g0, Nat.divide 4 8 /\ b_size stage_builder = (8, 4) /\ b_moves stage_builder = [] /\ b_outcome stage_builder = None /\
  NoDup (setup_stones stage_builder).*1 /\ (forall s, s ∈ setup_stones stage_builder -> ron (8, 4) (fst s)) /\ build_inner dbg stage_builder = Ok g /\
  size_of (Custom 8 4) = (8, 4) /\ game_new (Custom 8 4) JAPANESE = Ok g0 /\ gm_rule g = JAPANESE /\ laid_stones Black stage_ms = Some stage_list /\ stage_list ≡ₚ setup_stones stage_builder /\
  gm_turn g = (if Nat.even (length stage_ms) then Black else White) /\ rall_breathe (8, 4) (position g) /\ forbids_fill_eye JAPANESE = false /\ forbids_superko JAPANESE = false.
Proof.
  destruct (build_inner dbg stage_builder) as [g| |] eqn:E; [|destruct dbg; vm_compute in E; discriminate..].
  destruct (game_new (Custom 8 4) JAPANESE) as [g0| |] eqn:E0; [|vm_compute in E0; discriminate..].
  assert (Nd : NoDup (setup_stones stage_builder).*1).
  { cbn. repeat (constructor; [rewrite ?elem_of_cons, elem_of_nil; intuition discriminate|]). constructor. }
  assert (On : forall s, s ∈ setup_stones stage_builder -> ron (8, 4) (fst s)).
  { intros s H. cbn in H. rewrite !elem_of_cons, elem_of_nil in H. destruct H as [->|[->|[->|[->|[]]]]]; split; cbn; lia. }
  assert (F : match build_inner dbg stage_builder with Ok g => bool_decide (gm_turn g = Black) && bool_decide (position g (0, 1) = None) && bool_decide (position g (0, 2) = None) &&
      bool_decide (position g (2, 3) = None) && bool_decide (position g (3, 3) = None) | _ => false end = true) by (destruct dbg; vm_compute; reflexivity).
  assert (R : match build_inner dbg stage_builder with Ok g => gm_rule g = JAPANESE | _ => False end) by (destruct dbg; vm_compute; reflexivity).
  rewrite E in F, R. rewrite !andb_true_iff, !bool_decide_eq_true in F. destruct F as [[[[F1 F2] F3] F4] F5].
  exists g, g0. split; [exists 2; reflexivity|]. do 3 (split; [reflexivity|]). split; [exact Nd|]. split; [exact On|]. split; [reflexivity|]. split; [reflexivity|]. split; [reflexivity|].
  split; [exact R|]. split; [reflexivity|]. split.
  { change (stage_list ≡ₚ [((1, 1), Black); ((2, 2), White); ((1, 2), Black); ((3, 2), White)]). unfold stage_list.
    apply NoDup_Permutation; [repeat (constructor; [rewrite ?elem_of_cons, elem_of_nil; intuition discriminate|]); constructor..|]. intros x. rewrite !elem_of_cons. tauto. }
  split; [exact F1|]. split; [|split; reflexivity].
  intros q Hq N. destruct (position g q) as [c|] eqn:Eq; [|congruence].
  assert (Hn : fits (8, 4)) by (split; [cbn; lia|split; [cbn; lia|exists 2; reflexivity]]).
  destruct (staged dbg (8, 4) stage_builder g Hn eq_refl eq_refl Nd On E) as (_ & _ & _ & G).
  apply (G q c Hq) in Eq. cbn in Eq. rewrite !elem_of_cons, elem_of_nil in Eq.
  destruct Eq as [Eq|[Eq|[Eq|[Eq|[]]]]]; injection Eq as -> ->.
  - exists (0, 1). split; [split; cbn; lia|]. split; [exact F2|]. exists (1, 1). split; [apply rtc_refl|unfold adj; cbn; lia].
  - exists (2, 3). split; [split; cbn; lia|]. split; [exact F4|]. exists (2, 2). split; [apply rtc_refl|unfold adj; cbn; lia].
  - exists (0, 2). split; [split; cbn; lia|]. split; [exact F3|]. exists (1, 2). split; [apply rtc_refl|unfold adj; cbn; lia].
  - exists (3, 3). split; [split; cbn; lia|]. split; [exact F5|]. exists (3, 2). split; [apply rtc_refl|unfold adj; cbn; lia].
Qed.

(** a white stone without liberties can be set up; played, it is taken *)
Definition dead_builder : builder := mkBuilder (4, 4) JAPANESE None None [] (Some White) [] None [((0, 1), Black); ((0, 0), White); ((1, 0), Black)].
Definition dead_ms : list move := [MPlay 0 1; MPlay 0 0; MPlay 1 0].

Lemma dead_stage dbg : exists g g0 g2, build_inner dbg dead_builder = Ok g /\ game_new (Custom 4 4) JAPANESE = Ok g0 /\ gm_rule g = JAPANESE /\
  laid_stones Black dead_ms = Some (setup_stones dead_builder) /\ gm_turn g = White /\ all_accepted dbg g0 dead_ms g2 /\
  position g (0, 0) = Some White /\ position g2 (0, 0) = None.
Proof.
  destruct (build_inner dbg dead_builder) as [g| |] eqn:E; [|destruct dbg; vm_compute in E; discriminate..].
  destruct (game_new (Custom 4 4) JAPANESE) as [g0| |] eqn:E0; [|vm_compute in E0; discriminate..].
  assert (F : match build_inner dbg dead_builder, game_new (Custom 4 4) JAPANESE with Ok g, Ok g0 => match tried dbg g0 dead_ms with
      | Some g2 => bool_decide (gm_turn g = White) && bool_decide (position g (0, 0) = Some White) && bool_decide (position g2 (0, 0) = None) | None => false end | _, _ => false end = true)
    by (destruct dbg; vm_compute; reflexivity).
  assert (R : match build_inner dbg dead_builder with Ok g => gm_rule g = JAPANESE | _ => False end) by (destruct dbg; vm_compute; reflexivity).
  rewrite E, E0 in F. rewrite E in R. destruct (tried dbg g0 dead_ms) as [g2|] eqn:T; [|discriminate]. rewrite !andb_true_iff, !bool_decide_eq_true in F. destruct F as [[F1 F2] F3].
  exists g, g0, g2. do 2 (split; [reflexivity|]). split; [exact R|]. split; [reflexivity|]. split; [exact F1|]. split; [apply tried_all, T|]. split; [exact F2|exact F3].
Qed.
