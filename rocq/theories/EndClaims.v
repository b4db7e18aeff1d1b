(** Concrete cases for the theorems about the end of games and reachable positions. *)
From stdpp Require Import relations.
From Verif Require Import EndSpec AreaSpec Spec Observe Ops.
From Verif Require Import Bridge MonadFacts GameFacts RulesFacts LegalFacts EndFacts PositionFacts LifeFacts ClaimFacts.
From Verif Require Export CaseFacts.
From Coq Require Import Lia.

Local Notation length := Datatypes.length.
Open Scope nat_scope.

(** a legal game under Chinese rules that goes on with a capture *)
Lemma case_superko_run dbg : exists g g',
  lreach dbg 9 g /\ forbids_superko (gm_rule g) = true /\ forbids_suicide (gm_rule g) = true /\
  2 < length (gm_history g) /\ stone_run dbg 9 2 g g' /\ position g (1, 1) = Some White /\ position g' (1, 1) = None.
Proof.
  destruct (legal_sampleb dbg 9 CHINESE (removelast ko_moves) (fun g =>
     forbids_superko (gm_rule g) && forbids_suicide (gm_rule g) && (2 <? length (gm_history g)) && has g (1, 1) (Some White) &&
     match try_play dbg g (MPlay 1 2) with
     | Ok (g1, Accepted) => match try_play dbg g1 (MPlay 5 5) with Ok (g', Accepted) => has g' (1, 1) None | _ => false end
     | _ => false end) ltac:(lia)) as (g & L & F); [destruct dbg; vm_compute; reflexivity|].
  bools F. destruct (try_play dbg g (MPlay 1 2)) as [[g1 []]| |] eqn:E1; try discriminate.
  destruct (try_play dbg g1 (MPlay 5 5)) as [[g' []]| |] eqn:E2; try discriminate.
  unfold has in *. apply bool_decide_eq_true in F1, F0. apply Nat.ltb_lt in F2.
  exists g, g'. repeat (split; [assumption|]). split; [|auto].
  eapply sr_stone; [|exact E1|]; [on_|]. eapply sr_stone; [|exact E2|apply sr_end]. on_.
Qed.

(** every stone has an empty neighbour *)
Definition airy (n : nat) (P : pos) : bool :=
  forallb (fun p => match P p with None => true | Some _ => existsb (fun q => bool_decide (adj p q /\ P q = None)) (points n) end) (points n).

Lemma airy_breathes n P : airy n P = true -> all_breathe n P.
Proof.
  intros H p Hp Ep. unfold airy in H. rewrite List.forallb_forall in H. specialize (H p ltac:(apply elem_of_list_In, elem_of_points, Hp)).
  destruct (P p); [|contradiction]. apply existsb_exists in H. destruct H as (q & Hq & D). apply bool_decide_eq_true in D. destruct D as [A E].
  exists q. split; [apply elem_of_points, elem_of_list_In, Hq|]. split; [exact E|]. exists p. split; [apply rtc_refl|exact A].
Qed.

(** a ko set up on the board, under a rule that forbids superko and suicide *)
Definition ko_setup : builder :=
  mkBuilder (4, 4) (mkRule (f32_make 15 (-1)) (N.lor SUPERKO SUICIDE) (N.lor KOMI STONES)) None None [] (Some Black) [] None
    [((0, 1), Black); ((1, 0), Black); ((2, 1), Black); ((1, 1), White); ((0, 2), White); ((1, 3), White); ((2, 2), White)].

(** The two sides take and retake the ko: with two recorded positions nothing is
    compared, and no further position is ever recorded. *)
Lemma endless_ko dbg : exists g g', lreach dbg 4 g /\ forbids_superko (gm_rule g) = true /\ forbids_suicide (gm_rule g) = true /\
  stone_run dbg 4 2 g g' /\ same_pos 4 (position g') (position g) /\ gm_turn g' = gm_turn g /\
  gm_ko_point g' = gm_ko_point g /\ length (gm_history g) = 2 /\ length (gm_history g') = 2 /\ captures 4 (position g) (1, 2) (gm_turn g).
Proof.
  destruct (build_inner dbg ko_setup) as [g0| |] eqn:E0; [|destruct dbg; vm_compute in E0; discriminate..].
  assert (C : (airy 4 (position g0) &&
    match try_play dbg g0 (MPlay 1 2) with Ok (g1, Accepted) =>
    match try_play dbg g1 (MPlay 1 1) with Ok (g, Accepted) =>
      forbids_superko (gm_rule g) && forbids_suicide (gm_rule g) && (length (gm_history g) =? 2) && ok_is (will_capture dbg g (1, 2)) true && has g (1, 2) None &&
    match try_play dbg g (MPlay 1 2) with Ok (g3, Accepted) =>
    match try_play dbg g3 (MPlay 1 1) with Ok (g', Accepted) =>
      bool_decide (List.map (position g') (points 4) = List.map (position g) (points 4)) && bool_decide (gm_turn g' = gm_turn g) &&
      bool_decide (gm_ko_point g' = gm_ko_point g) && (length (gm_history g') =? 2)
    | _ => false end | _ => false end | _ => false end | _ => false end) = true).
  { destruct dbg; vm_compute in E0; injection E0 as <-; vm_compute; reflexivity. }
  apply andb_true_iff in C. destruct C as [A C].
  destruct (try_play dbg g0 (MPlay 1 2)) as [[g1 []]| |] eqn:E1; try discriminate.
  destruct (try_play dbg g1 (MPlay 1 1)) as [[g []]| |] eqn:E2; try discriminate. bools C.
  destruct (try_play dbg g (MPlay 1 2)) as [[g3 []]| |] eqn:E3; try discriminate.
  destruct (try_play dbg g3 (MPlay 1 1)) as [[g' []]| |] eqn:E4; try discriminate. bools C0.
  assert (L0 : lreach dbg 4 g0).
  { apply (lr_build dbg 4 ko_setup); [lia|reflexivity|reflexivity| | |exact E0|apply airy_breathes, A].
    - vm_compute. repeat (apply NoDup_cons; split; [intros F; repeat (apply elem_of_cons in F; destruct F as [F|F]; [discriminate|]); apply elem_of_nil in F; contradiction|]). apply NoDup_nil. exact I.
    - intros s Hs. vm_compute in Hs. repeat (apply elem_of_cons in Hs; destruct Hs as [->|Hs]; [on_|]). apply elem_of_nil in Hs. contradiction. }
  assert (L1 : lreach dbg 4 g1) by (eapply lr_play; [exact L0| |exact E1]; on_).
  assert (L2 : lreach dbg 4 g) by (eapply lr_play; [exact L1| |exact E2]; on_).
  unfold has in *. apply bool_decide_eq_true in C1, C0, C6, C7. apply ok_is_eq in C2. apply Nat.eqb_eq in C3, C5.
  exists g, g'. split; [exact L2|]. split; [exact C|]. split; [assumption|]. split.
  { eapply sr_stone; [|exact E3|]; [on_|]. eapply sr_stone; [|exact E4|apply sr_end]. on_. }
  split; [apply picture_same; exact C0|]. repeat (split; [assumption|]).
  destruct (lreach_greach _ _ _ L2) as (b & w & HG).
  destruct (claim_will_capture dbg 4 b w g (1, 2) HG ltac:(on_) ltac:(assumption)) as (v & Ev & Hv). rewrite C2 in Ev. injection Ev as <-. apply Hv. reflexivity.
Qed.

(** a position with stones of both colours, one of them in atari *)
Lemma case_positions dbg : exists s g0 P, size_of s = (9, 9) /\ game_new s CHINESE = Ok g0 /\ forbids_fill_eye CHINESE = false /\
  all_breathe 9 P /\ P (1, 1) = Some White /\ P (1, 0) = Some Black /\ P (5, 5) = None /\ lreach dbg 9 g0.
Proof.
  destruct (legal_sampleb dbg 9 CHINESE (removelast ko_moves) (fun g => has g (1, 1) (Some White) && has g (1, 0) (Some Black) && has g (5, 5) None) ltac:(lia)) as (g & L & F);
    [destruct dbg; vm_compute; reflexivity|].
  bools F. unfold has in *. apply bool_decide_eq_true in F, F0, F1.
  destruct (game_new (Custom 9 9) CHINESE) as [g0| |] eqn:E0; [|vm_compute in E0; discriminate..].
  exists (Custom 9 9), g0, (position g). split; [reflexivity|]. split; [exact E0|]. split; [reflexivity|].
  split; [apply (lreach_inv _ _ _ L)|]. repeat (split; [assumption|]). apply (lr_new dbg 9 (Custom 9 9) CHINESE); [lia|reflexivity|exact E0].
Qed.
