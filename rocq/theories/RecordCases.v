(** A concrete case for the theorems about recorded positions. *)
From stdpp Require Import relations.
From Verif Require Import RecordSpec Spec Observe Reach Samples Game Builder MonadFacts GameFacts RefuteFacts CaseFacts.
From Verif Require Import RectBridge RectSpec RectReach RectGo RectInv RectGame RectSymFacts RectSymClaims PastFacts PastCases RecordFacts.
From Coq Require Import Lia.
Local Notation length := Datatypes.length.
Local Open Scope nat_scope.

(** a ko in each of two corners; both are taken and taken back, then both players
    pass and the game is resumed *)
Definition two_kos : list stone :=
  [((0, 0), White); ((0, 2), White); ((1, 1), White); ((1, 0), Black); ((3, 3), White); ((3, 1), White); ((2, 2), White); ((2, 3), Black)].
Definition two_kos_set_up : builder := mkBuilder (4, 4) CHINESE None None [] (Some Black) [] None two_kos.
Definition one_then_other : list move := [MPlay 0 1; MPlay 0 0; MPlay 3 2; MPlay 3 3; MPass; MPass].
Definition other_then_one : list move := [MPlay 3 2; MPlay 3 3; MPlay 0 1; MPlay 0 0; MPass; MPass].

Definition same_b (n : nat * nat) (a b : goban) : bool := forallb (fun p => bool_decide (pos_of a p = pos_of b p)) (rpoints n).
Definition cover (n : nat * nat) (l l' : list goban) : bool := forallb (fun a => existsb (same_b n a) l') l.

Lemma same_b_spec n a b : same_b n a b = true <-> rsame_pos n (pos_of a) (pos_of b).
Proof.
  split; [apply rsame_pos_b|]. intros H. apply forallb_forall. intros p Hp. apply bool_decide_eq_true_2, H, elem_of_rpoints, elem_of_list_In, Hp.
Qed.

Lemma cover_spec n g h : cover n (gm_history g) (gm_history h) = true -> forall P, on_record n g P -> on_record n h P.
Proof.
  intros H P (y & Hy & E). unfold cover in H. rewrite forallb_forall in H. apply elem_of_list_In, H in Hy. apply existsb_exists in Hy as (z & Hz & S).
  exists z. split; [apply elem_of_list_In, Hz|]. apply same_b_spec in S. intros p Hp. rewrite (E p Hp). apply S, Hp.
Qed.

Lemma case_record dbg dbg' : exists g h b w b' w' a a', Nat.divide 4 4 /\ rgreach dbg (4, 4) b w g /\ rgreach dbg' (4, 4) b' w' h /\ same_now (4, 4) g h /\ same_record (4, 4) g h /\
  length (chains (gm_goban h)) = length (chains (gm_goban g)) /\ b + w <= 14 /\ b' + w' <= 14 /\ gm_rule g = CHINESE /\ length (gm_history g) = 3 /\
  gm_history g !! 1 = Some a /\ gm_history h !! 1 = Some a' /\ ~ rsame_pos (4, 4) (pos_of a) (pos_of a') /\
  try_play dbg g (MPlay 0 1) = Ok (g, Refused EKo).
Proof.
  assert (Nd : NoDup two_kos.*1) by (vm_compute; repeat constructor; rewrite ?elem_of_cons, ?elem_of_nil; intuition congruence).
  assert (On : forall s, s ∈ two_kos -> ron (4, 4) (fst s)).
  { intros s Hs. unfold two_kos in Hs. rewrite !elem_of_cons, elem_of_nil in Hs. destruct Hs as [->|[->|[->|[->|[->|[->|[->|[->|[]]]]]]]]]; unfold ron; cbn; lia. }
  destruct (build_inner dbg two_kos_set_up) as [g0| |] eqn:E0; [|destruct dbg; vm_compute in E0; discriminate..].
  destruct (build_inner dbg' two_kos_set_up) as [h0| |] eqn:E0'; [|destruct dbg'; vm_compute in E0'; discriminate..].
  assert (F : match build_inner dbg two_kos_set_up, build_inner dbg' two_kos_set_up with
    | Ok g0, Ok h0 => match rrun dbg (4, 4) g0 one_then_other, rrun dbg' (4, 4) h0 other_then_one with
      | Some g, Some h => let g := resume g in let h := resume h in now_b (4, 4) g h && cover (4, 4) (gm_history g) (gm_history h) && cover (4, 4) (gm_history h) (gm_history g) && (length (chains (gm_goban h)) =? length (chains (gm_goban g))) && (length (gm_history g) =? 3) &&
          match gm_history g !! 1, gm_history h !! 1 with Some a, Some a' => negb (same_b (4, 4) a a') | _, _ => false end && verdict_is (try_play dbg g (MPlay 0 1)) (Some EKo)
      | _, _ => false end
    | _, _ => false end = true) by (destruct dbg, dbg'; vm_compute; reflexivity).
  assert (R : match build_inner dbg two_kos_set_up, build_inner dbg' two_kos_set_up with
    | Ok g0, Ok h0 => match rrun dbg (4, 4) g0 one_then_other, rrun dbg' (4, 4) h0 other_then_one with
      | Some g, Some h => gm_rule g = CHINESE /\ gm_rule h = CHINESE | _, _ => False end | _, _ => False end) by (destruct dbg, dbg'; vm_compute; split; reflexivity).
  rewrite E0, E0' in F, R. destruct (rrun dbg (4, 4) g0 one_then_other) as [g|] eqn:E; [|discriminate]. destruct (rrun dbg' (4, 4) h0 other_then_one) as [h|] eqn:E'; [|discriminate].
  destruct R as [R R']. rewrite !andb_true_iff, !Nat.eqb_eq in F. destruct F as [[[[[[F1 F2] F3] F4] F5] F6] F7].
  cbv zeta in F1. destruct (gm_history (resume g) !! 1) as [a|] eqn:Ha; [|discriminate]. destruct (gm_history (resume h) !! 1) as [a'|] eqn:Ha'; [|discriminate].
  pose proof (rg_build dbg (4, 4) two_kos_set_up g0 ltac:(cbn; lia) ltac:(cbn; lia) eq_refl eq_refl Nd On E0) as HG0.
  pose proof (rg_build dbg' (4, 4) two_kos_set_up h0 ltac:(cbn; lia) ltac:(cbn; lia) eq_refl eq_refl Nd On E0') as HH0.
  destruct (rrun_reach dbg (4, 4) one_then_other _ _ g0 g HG0 E) as (b & w & HG & L). destruct (rrun_reach dbg' (4, 4) other_then_one _ _ h0 h HH0 E') as (b' & w' & HH & L').
  exists (resume g), (resume h), b, w, b', w', a, a'. split; [exists 1; reflexivity|]. split; [apply rg_resume, HG|]. split; [apply rg_resume, HH|]. split; [apply now_b_spec; [exact F1|cbn; congruence]|].
  split; [intros P; split; apply cover_spec; assumption|]. split; [exact F4|]. split; [exact L|]. split; [exact L'|]. split; [exact R|]. split; [exact F5|]. split; [exact Ha|]. split; [exact Ha'|].
  split; [|apply refused_is, F7]. intros S. apply same_b_spec in S. rewrite S in F6. discriminate.
Qed.
