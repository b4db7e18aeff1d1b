(** Stones played below the last row: witnesses. *)
From stdpp Require Import relations sorting.
From Verif Require Import AreaSpec.
From Verif Require Import MonadFacts Struct Push Inv Bridge GameFacts LegalFacts ClaimFacts ApiFacts OverFacts BelowFacts.
From Verif Require Import Samples SampleFacts RefuteFacts CaseFacts.
From Coq Require Import Lia.

Local Notation length := Datatypes.length.

Fixpoint try_all (dbg : bool) (g : game) (l : list move) : option game :=
  match l with
  | [] => Some g
  | m :: l => match try_play dbg g m with Ok (g', Accepted) => try_all dbg g' l | _ => None end
  end.

Lemma try_all_accepted dbg l : forall g g', try_all dbg g l = Some g' -> all_accepted dbg g l g'.
Proof.
  induction l as [|m l IH]; intros g g'; cbn [try_all all_accepted].
  - congruence.
  - destruct (try_play dbg g m) as [[g1 []]| |] eqn:E; try discriminate. intros H. exists g1. split; [reflexivity|apply IH, H].
Qed.

Definition sees (P : pos) (p : coord) (c : option color) : bool := bool_decide (P p = c).

Local Ltac decs := repeat match goal with
  | H : sees _ _ _ = true |- _ => apply bool_decide_eq_true in H
  | H : bool_decide _ = true |- _ => apply bool_decide_eq_true in H
  | H : (_ =? _)%nat = true |- _ => apply Nat.eqb_eq in H
  end.

(** a move that is no pass, and changes no point *)
Lemma below_idles dbg : exists g g', lreach dbg 3 g /\ below 3 (3, 1) /\ gm_turn g = Black /\
  try_play dbg g (MPlay 3 1) = Ok (g', Accepted) /\ gm_turn g' = White /\ gm_passes g' = 0%nat /\ same_pos 3 (position g') (position g) /\
  gm_prisoners g' = gm_prisoners g.
Proof.
  destruct (legal_sampleb dbg 3 JAPANESE [MPlay 1 1; MPlay 0 0] (fun g => bool_decide (gm_turn g = Black) &&
    match try_play dbg g (MPlay 3 1) with
    | Ok (g', Accepted) => bool_decide (gm_turn g' = White) && (gm_passes g' =? 0)%nat && bool_decide (gm_prisoners g' = gm_prisoners g) &&
        forallb (fun p => bool_decide (position g' p = position g p)) (points 3)
    | _ => false
    end) ltac:(lia)) as (g & L & F); [destruct dbg; vm_compute; reflexivity|].
  apply andb_true_iff in F as [F0 F]. apply bool_decide_eq_true in F0.
  destruct (try_play dbg g (MPlay 3 1)) as [[g' []]| |] eqn:E; try discriminate F.
  bools F. decs.
  exists g, g'. split; [exact L|]. split; [repeat split; cbn; lia|]. repeat (split; [assumption|]). split; [apply same_pos_b; assumption|assumption].
Qed.

(** one stone taken, two prisoners *)
Lemma below_counts_twice : exists g g1 g2, lreach false 3 g /\ below 3 (3, 0) /\
  all_accepted false g [MPlay 3 0; MPlay 1 0; MPass] g1 /\ gm_prisoners g1 = (0, 0)%N /\
  try_play false g1 (MPlay 2 1) = Ok (g2, Accepted) /\
  (forall q, on 3 q -> q <> (2, 1) -> q <> (2, 0) -> position g2 q = position g1 q) /\ position g1 (2, 0) = Some Black /\ position g2 (2, 0) = None /\
  gm_prisoners g2 = (0, 2)%N.
Proof.
  destruct (legal_sampleb false 3 JAPANESE [MPlay 2 0; MPlay 0 2] (fun g =>
    match try_all false g [MPlay 3 0; MPlay 1 0; MPass] with
    | Some g1 => bool_decide (gm_prisoners g1 = (0, 0)%N) && sees (position g1) (2, 0) (Some Black) &&
      match try_play false g1 (MPlay 2 1) with
      | Ok (g2, Accepted) => bool_decide (gm_prisoners g2 = (0, 2)%N) && sees (position g2) (2, 0) None &&
        forallb (fun p => bool_decide (p = (2, 1)) || bool_decide (p = (2, 0)) || bool_decide (position g2 p = position g1 p)) (points 3)
      | _ => false
      end
    | None => false
    end) ltac:(lia)) as (g & L & F); [vm_compute; reflexivity|].
  destruct (try_all false g _) as [g1|] eqn:E1; [|discriminate F].
  apply andb_true_iff in F as [F0 F]. bools F0. decs.
  destruct (try_play false g1 (MPlay 2 1)) as [[g2 []]| |] eqn:E2; try discriminate F.
  bools F. decs.
  exists g, g1, g2. split; [exact L|]. split; [repeat split; cbn; lia|]. split; [apply try_all_accepted, E1|].
  split; [assumption|]. split; [exact E2|]. split; [|auto].
  intros q Hq N1 N2. match goal with H : forallb _ _ = true |- _ => rename H into K end.
  rewrite forallb_forall in K. specialize (K q). rewrite <- elem_of_list_In in K. specialize (K (proj2 (elem_of_points 3 q) Hq)).
  rewrite !orb_true_iff in K. destruct K as [[X|X]|X]; apply bool_decide_eq_true in X; [contradiction..|exact X].
Qed.

(** a stone that cannot be taken *)
Lemma below_saves : exists g g1, lreach false 3 g /\ below 3 (3, 0) /\
  all_accepted false g [MPlay 3 0; MPass; MPlay 1 0; MPass; MPlay 2 1] g1 /\
  position g1 (2, 0) = Some White /\ position g1 (1, 0) = Some Black /\ position g1 (2, 1) = Some Black /\ ~ all_breathe 3 (position g1).
Proof.
  destruct (legal_sampleb false 3 free_rule [MPlay 0 2; MPlay 2 0] (fun g =>
    match try_all false g [MPlay 3 0; MPass; MPlay 1 0; MPass; MPlay 2 1] with
    | Some g1 => sees (position g1) (2, 0) (Some White) && sees (position g1) (1, 0) (Some Black) && sees (position g1) (2, 1) (Some Black)
    | None => false
    end) ltac:(lia)) as (g & L & F); [vm_compute; reflexivity|].
  destruct (try_all false g _) as [g1|] eqn:E1; [|discriminate F]. bools F. decs.
  exists g, g1. split; [exact L|]. split; [repeat split; cbn; lia|]. split; [apply try_all_accepted, E1|].
  repeat (split; [assumption|]). intros A. destruct (A (2, 0) ltac:(on_) ltac:(congruence)) as (l & L1 & L2 & q & C & Ha).
  assert (N : forall q, on 3 q -> adj (2, 0) q -> position g1 q = Some Black).
  { intros [a b] [Q1 Q2] H. unfold adj in H. cbn in *. assert ((a = 1 /\ b = 0) \/ (a = 2 /\ b = 1)) as [[-> ->]|[-> ->]] by lia; assumption. }
  assert (q = (2, 0)) as ->.
  { inversion C as [|? y0 ? (S3 & S4 & S5 & S6) P']; [reflexivity|subst]. exfalso. rewrite (N y0) in S6 by assumption. congruence. }
  rewrite (N l L1 Ha) in L2. discriminate L2.
Qed.

Lemma case_below dbg : exists g, lreach dbg 9 g /\ 2 <= 9 /\ (N.of_nat (length (chains (gm_goban g))) < 65535)%N /\ below 9 (9, 3) /\ below 9 (20, 0) /\
  (forall q, on 9 q -> adj (9, 3) q -> position g q = None) /\ ~ swallowed 9 g (9, 3) /\
  playable dbg 9 g 9 3 /\ playable dbg 9 g 4 5 /\ ~ playable dbg 9 g 41 0.
Proof.
  destruct (legal_sampleb dbg 9 CHINESE [MPlay 4 4; MPlay 8 4] (fun g => bool_decide (length (chains (gm_goban g)) < 100) &&
    sees (position g) (8, 3) None && sees (position g) (4, 5) None) ltac:(lia)) as (g & L & F); [destruct dbg; vm_compute; reflexivity|].
  bools F. decs. exists g. split; [exact L|]. split; [lia|]. split; [lia|].
  assert (N : forall q, on 9 q -> adj (9, 3) q -> position g q = None).
  { intros [a b] [Q1 Q2] H. unfold adj in H. cbn in *. assert (a = 8 /\ b = 3) as [-> ->] by lia. assumption. }
  split; [repeat split; cbn; lia|]. split; [repeat split; cbn; lia|]. split; [exact N|].
  split; [intros [_ S]; specialize (S (8, 3)); rewrite F1 in S; specialize (S ltac:(on_) ltac:(right; cbn; lia)); discriminate S|].
  split; [split; [cbn; lia|]; intros _; right; exact N|].
  split; [split; [cbn; lia|]; intros _; left; split; [on_|assumption]|]. intros [H _]. cbn in H. lia.
Qed.
