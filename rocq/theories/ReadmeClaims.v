(** The README example when it runs for longer, and cases. *)
From stdpp Require Import relations sorting.
From Verif Require Import Readme ReadmeSpec ReadmeFacts.
From Verif Require Import Struct Push Inv Bridge MonadFacts GameFacts LegalFacts ClaimFacts PropFacts TableFacts CaseFacts SampleFacts RefuteFacts LifeClaims.
From Coq Require Import Lia.

Local Notation length := Datatypes.length.

(** a game of stones on the 19x19 board after which White has no legal move *)
Definition stuck_line : list coord :=
  [(7, 17); (12, 9); (16, 14); (14, 7); (18, 14); (0, 11); (8, 11); (0, 2); (13, 0); (10, 16); (12, 15); (14, 11); (4, 6); (6, 9);
   (13, 14); (8, 0); (15, 3); (12, 0); (16, 11); (8, 15); (9, 4); (0, 6); (14, 14); (17, 17); (5, 10); (13, 5); (13, 1); (10, 0);
   (3, 12); (1, 18); (18, 15); (7, 6); (13, 6); (13, 9); (17, 6); (6, 10); (18, 9); (14, 5); (15, 11); (12, 10); (0, 14); (5, 13);
   (13, 10); (18, 16); (10, 12); (6, 4); (0, 0); (6, 12); (9, 6); (2, 16); (17, 11); (8, 4); (11, 3); (13, 17); (1, 17); (14, 3);
   (17, 14); (3, 16); (8, 10); (1, 4); (13, 4); (11, 5); (1, 11); (1, 6); (2, 4); (11, 7); (15, 4); (10, 8); (2, 0); (2, 18);
   (13, 13); (14, 8); (7, 12); (2, 5); (4, 13); (2, 8); (10, 17); (17, 18); (4, 16); (5, 9); (3, 1); (4, 8); (15, 17); (7, 10);
   (0, 5); (18, 1); (13, 16); (12, 5); (14, 0); (12, 3); (8, 18); (7, 3); (13, 12); (11, 4); (18, 6); (14, 1); (15, 18); (11, 6);
   (5, 3); (14, 17); (5, 2); (16, 13); (6, 5); (13, 18); (10, 14); (5, 15); (12, 11); (16, 10); (18, 3); (0, 12); (3, 10); (15, 1);
   (13, 8); (14, 13); (10, 4); (18, 2); (8, 17); (17, 8); (3, 4); (18, 10); (18, 8); (16, 15); (1, 0); (8, 6); (9, 18); (13, 11);
   (15, 6); (6, 0); (16, 18); (9, 1); (8, 8); (9, 0); (7, 9); (7, 18); (6, 18); (4, 7); (2, 15); (3, 17); (3, 11); (2, 2);
   (11, 16); (4, 17); (14, 6); (4, 18); (3, 6); (3, 18); (9, 12); (17, 5); (4, 14); (9, 13); (16, 2); (6, 3); (1, 16); (14, 12);
   (9, 2); (16, 7); (15, 5); (0, 17); (13, 3); (0, 18); (7, 13); (4, 12); (7, 2); (6, 16); (18, 11); (0, 16); (17, 10); (17, 4);
   (10, 18); (17, 7); (11, 8); (11, 17); (15, 9); (8, 3); (2, 7); (6, 2); (18, 7); (12, 17); (10, 13); (6, 14); (15, 2); (3, 13);
   (1, 10); (7, 1); (5, 11); (7, 0); (6, 6); (9, 10); (14, 16); (15, 12); (5, 7); (2, 14); (2, 10); (5, 16); (9, 3); (10, 15);
   (16, 5); (4, 11); (1, 3); (10, 5); (16, 3); (16, 6); (3, 9); (12, 2); (11, 11); (9, 14); (11, 9); (4, 1); (15, 14); (15, 13);
   (10, 1); (17, 2); (17, 13); (1, 15); (17, 3); (12, 18); (0, 13); (9, 15); (1, 12); (2, 1); (0, 10); (12, 8); (8, 16); (0, 1);
   (9, 9); (12, 12); (18, 0); (6, 13); (17, 1); (0, 7); (14, 15); (0, 12); (0, 11); (9, 16); (7, 8); (10, 7); (15, 16); (5, 8);
   (13, 2); (12, 4); (3, 8); (8, 14); (5, 4); (8, 12); (8, 13); (2, 11); (2, 12); (9, 11); (7, 16); (10, 2); (11, 18); (1, 1);
   (9, 17); (6, 7); (4, 0); (16, 0); (9, 7); (12, 14); (4, 3); (1, 8); (16, 4); (8, 7); (18, 4); (6, 15); (18, 5); (5, 5);
   (2, 6); (12, 1); (15, 10); (15, 0); (16, 9); (10, 11); (10, 10); (15, 15); (6, 8); (6, 17); (7, 7); (11, 15); (17, 15); (0, 15);
   (16, 16); (5, 0); (11, 10); (15, 15); (16, 15); (15, 7); (17, 2); (2, 9); (18, 12); (11, 14); (1, 13); (7, 5); (3, 3); (7, 4);
   (16, 17); (1, 5); (8, 1); (1, 14); (12, 6); (4, 2); (14, 4); (6, 11); (14, 2); (17, 12); (16, 12); (12, 13); (14, 10); (14, 12);
   (4, 15); (18, 18); (17, 16); (4, 4); (18, 17); (14, 9); (4, 5); (17, 5); (17, 4); (0, 9); (5, 6); (0, 8); (15, 8); (17, 9);
   (16, 13); (3, 7); (17, 0); (5, 14); (16, 1); (7, 14); (15, 12); (0, 3); (12, 16); (15, 13); (14, 18); (9, 11); (14, 13); (5, 1);
   (14, 11); (6, 1); (10, 3); (2, 13); (11, 2); (5, 18); (13, 7); (5, 17); (8, 5); (4, 10); (18, 18); (16, 8); (12, 7); (1, 7);
   (3, 2); (13, 17); (12, 10); (14, 8); (17, 17); (16, 7); (16, 0); (15, 0); (15, 1); (12, 17); (17, 7); (1, 2); (14, 17); (14, 9);
   (13, 18); (11, 0); (10, 6); (17, 9); (17, 8); (3, 5); (16, 8); (11, 12); (3, 14); (7, 11); (2, 3); (11, 1); (0, 4); (1, 1);
   (1, 9); (7, 15); (0, 2); (2, 2); (1, 5); (11, 13); (11, 17); (2, 9); (2, 8); (9, 8); (12, 18); (1, 6); (8, 2); (12, 17);
   (13, 17); (15, 7); (9, 5); (0, 1); (10, 9); (7, 1); (6, 1); (13, 9); (7, 0); (1, 7); (14, 5); (8, 4); (8, 6); (10, 7);
   (6, 2); (3, 5); (2, 5); (14, 7); (9, 1); (12, 1); (7, 4); (1, 2); (8, 3); (12, 3); (2, 1); (5, 0); (12, 0); (0, 9);
   (0, 8); (5, 1); (18, 2); (4, 2); (4, 1); (13, 5); (12, 5); (9, 0); (6, 0); (0, 1); (1, 1); (9, 8); (10, 8); (11, 6);
   (11, 7); (5, 0); (5, 1); (11, 5); (6, 3); (7, 6); (7, 5); (8, 0); (10, 0); (2, 2); (1, 2); (0, 7); (11, 0); (10, 11);
   (9, 10); (11, 1); (12, 2); (10, 5); (11, 4); (10, 11); (9, 11); (4, 9); (12, 4); (12, 9); (11, 1); (1, 8); (0, 6); (1, 6);
   (1, 7); (10, 5); (11, 5); (16, 6); (12, 8); (8, 0); (9, 0); (13, 9); (14, 7); (15, 7); (16, 7); (12, 9); (14, 9); (12, 9);
   (13, 9); (5, 12); (5, 11); (5, 10); (17, 18); (5, 11); (0, 9); (7, 18); (13, 5); (6, 18); (16, 10); (8, 12); (7, 13); (8, 13);
   (12, 1); (7, 12); (5, 5); (7, 13); (13, 15); (2, 17); (1, 17); (1, 16); (3, 5); (1, 17); (3, 15); (5, 17); (4, 8); (2, 14);
   (5, 12); (7, 18); (6, 18); (0, 15); (4, 18); (3, 17); (6, 11); (1, 18); (3, 13); (10, 15); (10, 16); (11, 13); (9, 14); (5, 14);
   (1, 16); (5, 10); (4, 12); (9, 13); (8, 13); (5, 11); (6, 14); (7, 11); (4, 11); (8, 12); (7, 12); (6, 16); (7, 10); (2, 13);
   (1, 14); (2, 18); (5, 9); (2, 17); (4, 9); (2, 16); (4, 10); (6, 15); (6, 10); (6, 13); (12, 13); (3, 7); (4, 7); (8, 14);
   (7, 14); (3, 16); (8, 15); (2, 14); (2, 13); (0, 16); (1, 15); (5, 10); (5, 11); (0, 17); (11, 14); (0, 18); (11, 12); (9, 15);
   (1, 17); (9, 16); (11, 15); (9, 15); (7, 15); (6, 12); (3, 18); (5, 16); (4, 17); (5, 15); (3, 17); (3, 16); (2, 16); (10, 15);
   (9, 16); (7, 13); (5, 13); (0, 15); (0, 16); (7, 13); (6, 13); (5, 18); (6, 17); (6, 16); (1, 18); (2, 18); (2, 17); (6, 15);
   (5, 17); (0, 17); (0, 18); (5, 15); (10, 15); (5, 16); (5, 14); (6, 15); (5, 16); (5, 15); (6, 16); (5, 15); (6, 15)].

Definition stuck_moves : list move := List.map (fun p => MPlay (fst p) (snd p)) stuck_line.

Lemma stuck_line_on : Forall (on 19) stuck_line.
Proof. apply (bool_decide_eq_true_1 _). vm_compute. reflexivity. Qed.

Definition stuck_end (dbg : bool) : bool :=
  match game_new Nineteen CHINESE with
  | Ok g => match tries dbg 19 g stuck_moves with
            | Some g' => match legals dbg g' with Ok [] => true | _ => false end
            | None => false
            end
  | _ => false
  end.
Lemma stuck_end_true dbg : stuck_end dbg = true.
Proof. destruct dbg; vm_compute; reflexivity. Qed.

Lemma stuck_reached dbg : exists g g', game_new Nineteen CHINESE = Ok g /\ stones_accepted dbg 19 g stuck_line g' /\ legals dbg g' = Ok [] /\ lreach dbg 19 g'.
Proof.
  pose proof (stuck_end_true dbg) as F. unfold stuck_end in F. destruct (game_new Nineteen CHINESE) as [g| |] eqn:Eg; [|discriminate F..].
  destruct (tries dbg 19 g stuck_moves) as [g'|] eqn:Et; [|discriminate F]. destruct (legals dbg g') as [[|]| |] eqn:El; try discriminate F.
  exists g, g'. split; [reflexivity|]. split; [split; [exact stuck_line_on|exact (tries_accepted dbg 19 stuck_moves g g' Et)]|]. split; [exact El|].
  exact (tries_lreach dbg 19 stuck_moves g g' (lr_new dbg 19 Nineteen CHINESE g ltac:(lia) eq_refl Eg) Et).
Qed.

Theorem readme_longer i order dbg : (602 <= i)%nat -> exists choose, chooses choose /\ readme i choose order dbg = Panic.
Proof.
  intros Hi. destruct (stuck_reached dbg) as (g & g' & Eg & HA & El & _).
  destruct (readme_stuck stuck_line (i - 602) order dbg g g') as (choose & HC & E); [vm_compute; discriminate|assumption..|].
  exists choose. split; [exact HC|]. replace i with (length stuck_line + S (i - 602))%nat; [exact E|]. change (length stuck_line) with 601%nat. lia.
Qed.

(** cases *)
Definition first_legal (i : nat) (l : list coord) : option coord := head l.
Lemma first_legal_chooses : chooses first_legal.
Proof. intros i l. unfold first_legal. destruct l; [reflexivity|left]. Qed.

Lemma case_readme dbg : chooses first_legal /\ (35 <= 73)%nat /\ exists g, readme 35 first_legal (fun l => l) dbg = Ok g /\ position g (1, 14) = Some Black /\ gm_prisoners g = (0%N, 1%N) /\ legals dbg g <> Ok [].
Proof.
  split; [exact first_legal_chooses|]. split; [lia|].
  assert (F : match readme 35 first_legal (fun l => l) dbg with Ok g => has g (1, 14) (Some Black) && bool_decide (gm_prisoners g = (0%N, 1%N)) && match legals dbg g with Ok (_ :: _) => true | _ => false end | _ => false end = true) by (destruct dbg; vm_compute; reflexivity).
  destruct (readme 35 first_legal (fun l => l) dbg) as [g| |]; [|discriminate F..]. bools F. exists g. split; [reflexivity|]. split; [exact (bool_decide_eq_true_1 _ F)|]. split; [exact (bool_decide_eq_true_1 _ F1)|].
  intros E. rewrite E in F0. discriminate F0.
Qed.

Lemma case_line dbg : exists g g', (N.of_nat (length stuck_line) <= 65535)%N /\ game_new Nineteen CHINESE = Ok g /\ stones_accepted dbg 19 g stuck_line g' /\ legals dbg g' = Ok [].
Proof. destruct (stuck_reached dbg) as (g & g' & Eg & HA & El & _). exists g, g'. split; [vm_compute; discriminate|auto]. Qed.

(** after a ko capture; the point (7, 7) is open *)
Lemma case_open dbg : exists g, lreach dbg 9 g /\ ~ no_slot_left g /\ gm_passes g <> 2%nat /\ gm_ko_point g <> None /\ open_point 9 (position g) (7, 7) /\
  (5 * (count 9 (position g) Black + count 9 (position g) White) < 9 * 9)%nat.
Proof.
  destruct (legal_sampleb dbg 9 CHINESE ko_moves (fun g => bool_decide (N.of_nat (length (chains (gm_goban g))) <> 65535%N) && bool_decide (gm_passes g <> 2%nat) && bool_decide (gm_ko_point g <> None) &&
    has g (7, 7) None && bool_decide (Forall (fun q => adj (7, 7) q -> position g q = None) (points 9)) &&
    bool_decide (5 * (count 9 (position g) Black + count 9 (position g) White) < 9 * 9)%nat) ltac:(lia)) as (g & HL & F); [destruct dbg; vm_compute; reflexivity|].
  bools F. exists g. split; [exact HL|]. split; [exact (bool_decide_eq_true_1 _ F)|]. split; [exact (bool_decide_eq_true_1 _ F4)|]. split; [exact (bool_decide_eq_true_1 _ F3)|].
  split; [|exact (bool_decide_eq_true_1 _ F0)]. split; [split; cbn; lia|]. split; [exact (bool_decide_eq_true_1 _ F2)|]. apply bool_decide_eq_true_1 in F1.
  intros q Hq. rewrite Forall_forall in F1. apply F1, elem_of_points, Hq.
Qed.
