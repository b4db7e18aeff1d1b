(** A concrete case for the theorems about solid eyes. *)
From stdpp Require Import relations.
From Verif Require Import LifeSpec PlayoutSpec Spec Observe Ops.
From Verif Require Import Bridge MonadFacts GameFacts LegalFacts LifeFacts SolidFacts LifeClaims PlayClaims.
From Verif Require Export CaseFacts.
From Coq Require Import Lia.

Local Notation length := Datatypes.length.
Open Scope nat_scope.

Definition comb : list coord := [(1, 1); (1, 0); (0, 1); (1, 2); (1, 3); (0, 3); (1, 4); (1, 5); (0, 5); (1, 6)].
Definition comb_moves : list move := flat_map (fun p : coord => [MPlay (fst p) (snd p); MPass]) comb ++ [MPlay 5 5].
Definition first_move (i : nat) (g : game) (ms : list move) : res move := Ok (hd MPass ms).

Lemma offered_some dbg g ms : is_over g = false -> legals_moves dbg g = Ok ms -> ms <> [].
Proof.
  intros HO E. unfold legals_moves in E. apply bind_ok in E as (l & _ & E). rewrite HO in E. injection E as <-. destruct l; discriminate.
Qed.

Lemma first_fair dbg n g : answers dbg n first_move g.
Proof.
  intros i h ms _ HO El. pose proof (offered_some dbg h ms HO El) as H. right.
  destruct ms as [|m ms]; [contradiction|]. exists m. split; [reflexivity|left].
Qed.

(** a chain with four eyes in a row, which counts as floating; the game is played
    out at random and by the search *)
Lemma case_solid dbg : exists g b w g' l, greach dbg 7 b w g /\ forbids_suicide (gm_rule g) = true /\
  on 7 (1, 1) /\ position g (1, 1) = Some Black /\ solid_eye 7 (position g) (1, 1) (0, 0) /\ solid_eye 7 (position g) (1, 1) (0, 2) /\
  (forall i l, wheel i l ≡ₚ l) /\ playout 500 0 wheel dbg g = Ok g' /\
  answers dbg 7 first_move g /\ dead_stones 500 first_move dbg g = Ok l /\
  get_floating_stones dbg g = Ok [0] /\ group_no (gm_goban g) (1, 1) = Some 0 /\ is_over g = false.
Proof.
  destruct (sampleb dbg 7 JAPANESE comb_moves (fun g =>
     forbids_suicide (gm_rule g) && all_have g comb (Some Black) && has g (0, 0) None && has g (0, 2) None &&
     match playout 500 0 wheel dbg g with Ok _ => true | _ => false end && match dead_stones 500 first_move dbg g with Ok _ => true | _ => false end &&
     match get_floating_stones dbg g with Ok [0] => true | _ => false end && bool_decide (group_no (gm_goban g) (1, 1) = Some 0) && negb (is_over g)) ltac:(lia)) as (g & b & w & HG & _ & F); [destruct dbg; vm_compute; reflexivity|].
  bools F. pose proof (all_have_spec _ _ _ F7) as HB. unfold has in F6, F5. apply bool_decide_eq_true in F6, F5, F1. apply negb_true_iff in F0.
  destruct (playout 500 0 wheel dbg g) as [g'| |] eqn:E1; try discriminate. destruct (dead_stones 500 first_move dbg g) as [l| |] eqn:E2; try discriminate.
  destruct (get_floating_stones dbg g) as [[|[|] [|]]| |] eqn:E3; try discriminate.
  assert (K : forall a, a ∈ comb -> connected 7 (position g) (1, 1) a).
  { intros a Ha. unfold comb in Ha. apply elem_of_cons in Ha. destruct Ha as [->|Ha]; [apply rtc_refl|].
    eapply (grown_connected 7 (position g) (1, 1) Black [(1, 0); (0, 1); (1, 2); (1, 3); (0, 3); (1, 4); (1, 5); (0, 5); (1, 6)] [(1, 1)]); [vm_compute; reflexivity| | |exact Ha].
    - intros z Hz. apply elem_of_list_singleton in Hz. subst z. split; [on_|]. split; [apply HB; apply elem_of_cons; auto|apply rtc_refl].
    - intros z Hz. apply HB. apply elem_of_cons. right. exact Hz. }
  exists g, b, w, g', l. split; [exact HG|]. split; [exact F|]. split; [on_|]. split; [apply HB; left|].
  split.
  { split; [split; [on_|split; [exact F6|exists (0, 1); split; [apply K; unfold comb; elem_|unfold adj; cbn; lia]]]|].
    intros [x y] [Q1 Q2] A. cbn in Q1, Q2. unfold adj, diag in A. cbn in A. apply K.
    assert (x = 0 /\ y = 1 \/ x = 1 /\ y = 0 \/ x = 1 /\ y = 1) as [[-> ->]|[[-> ->]|[-> ->]]] by lia; unfold comb; elem_. }
  split.
  { split; [split; [on_|split; [exact F5|exists (0, 1); split; [apply K; unfold comb; elem_|unfold adj; cbn; lia]]]|].
    intros [x y] [Q1 Q2] A. cbn in Q1, Q2. unfold adj, diag in A. cbn in A. apply K.
    assert (x = 0 /\ y = 1 \/ x = 0 /\ y = 3 \/ x = 1 /\ y = 1 \/ x = 1 /\ y = 2 \/ x = 1 /\ y = 3) as [[-> ->]|[[-> ->]|[[-> ->]|[[-> ->]|[-> ->]]]]] by lia; unfold comb; elem_. }
  split; [exact wheel_perm|]. split; [exact E1|]. split; [exact (first_fair dbg 7 g)|]. auto.
Qed.

Global Instance move_eq : EqDecision move.
Proof. solve_decision. Defined.

Definition net : list coord := [(0, 3); (0, 1); (1, 2); (0, 5); (1, 4); (2, 2); (2, 3); (2, 4)].
Definition net_moves : list move := flat_map (fun p : coord => [MPlay (fst p) (snd p); MPass]) net.
Definition hunt : list move :=
  [MPlay 6 0; MPlay 0 0; MPlay 6 2; MPlay 1 1; MPlay 6 4; MPlay 0 2; MPlay 6 6; MPlay 0 6; MPlay 5 1; MPlay 1 5; MPlay 5 3; MPlay 0 4;
   MPlay 5 5; MPlay 1 3; MPlay 6 1; MPlay 2 1; MPlay 6 3; MPlay 3 2; MPlay 6 5; MPlay 3 3; MPlay 5 0; MPlay 3 4; MPlay 5 2; MPlay 2 5].

(** follow the plan while it lasts *)
Definition hunter (i : nat) (g : game) (ms : list move) : res move :=
  Ok (match hunt !! i with
      | Some m => if bool_decide (m ∈ ms) then m else hd MPass ms
      | None => List.last ms MPass
      end).

Lemma last_elem (ms : list move) d : ms <> [] -> List.last ms d ∈ ms.
Proof. intros H. apply elem_of_list_In. rewrite (List.app_removelast_last d H) at 2. apply in_or_app. right. left. reflexivity. Qed.

Lemma hunter_fair dbg n g : answers dbg n hunter g.
Proof.
  intros i h ms _ HO El. pose proof (offered_some dbg h ms HO El) as H. right. unfold hunter. eexists. split; [reflexivity|]. destruct (hunt !! i) as [m|]; [|apply last_elem, H].
  case_bool_decide; [assumption|]. destruct ms; [contradiction|left].
Qed.

(** two groups with three eyes each are reported: White breaks the eyes one by one *)
Lemma case_reported dbg : exists g b w, greach dbg 7 b w g /\ forbids_suicide (gm_rule g) = true /\
  answers dbg 7 hunter g /\ dead_stones 600 hunter dbg g = Ok [0; 2] /\ 0 ∈ [0; 2].
Proof.
  destruct (sampleb dbg 7 JAPANESE net_moves (fun g => forbids_suicide (gm_rule g) && match dead_stones 600 hunter dbg g with Ok [0; 2] => true | _ => false end) ltac:(lia)) as (g & b & w & HG & _ & F); [destruct dbg; vm_compute; reflexivity|].
  bools F. destruct (dead_stones 600 hunter dbg g) as [[|[|] [|[|[|[|]]] [|]]]| |] eqn:E; try discriminate. exists g, b, w. split; [exact HG|]. split; [exact F|]. split; [exact (hunter_fair dbg 7 g)|]. split; [exact E|left].
Qed.
