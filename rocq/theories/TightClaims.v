(** Whole games: the side to move (C20), refusals with FillEye (C43) and corresponding games (C54), from a new game. *)
From stdpp Require Import relations.
From Verif Require Import Spec Observe Ops SymSpec EyeSpec MonadFacts Struct Push Inv Bridge GameFacts RulesFacts KoFacts BoardFacts CheckFacts EyeFacts LegalFacts LegalsFacts OpsFacts EyeExact ClaimFacts SymFacts LongFacts TableSpec TableFacts Samples RefuteFacts CaseFacts.
From Coq Require Import Lia.

Lemma turn_from_new dbg s r g ops g' tr : game_new s r = Ok g -> forallb (fun o => negb (is_handicap o)) ops = true ->
  run dbg g ops = Ok (g', tr) -> (gm_turn g' = Black <-> Nat.Even (turns tr)).
Proof.
  intros Hn Hh H. rewrite (turn_run dbg g ops g' tr Hh H), <- Nat.even_spec. unfold game_new in Hn.
  apply bind_ok in Hn as (gb & _ & Hn). injection Hn as <-. cbn [gm_turn].
  destruct (Nat.even (turns tr)); cbn [opp]; split; congruence.
Qed.

Lemma fill_eye_shape dbg n b w g x y g' : greach dbg n b w g -> on n (x, y) ->
  try_play dbg g (MPlay x y) = Ok (g', Refused EFillEye) ->
  forbids_fill_eye (gm_rule g) = true /\ eye_shape n (position g) (gm_turn g) (x, y) /\
  position g (x, y) = None /\ forall q, on n q -> adj (x, y) q -> position g q = Some (gm_turn g).
Proof.
  intros HG Hp E. pose proof (claim_fill_eye dbg n b w g x y g' HG Hp E) as (Hf & He & Hq).
  pose proof (greach_inv _ _ _ _ _ HG) as G. pose proof (gi_wf _ _ _ _ G) as W.
  assert (P2 : gm_passes g <> 2%nat) by (intros H; rewrite (paused_refuses _ _ _ H) in E; discriminate).
  rewrite (try_play_point dbg n g x y W Hp P2) in E. apply bind_ok in E as (e & Ec & E).
  destruct e as [e|]; [|apply bind_ok in E as (g1 & _ & E); discriminate]. injection E as _ ->.
  unfold check_point in Ec.
  pose proof (contains_check Ec W (gi_hist _ _ _ _ G) Hp) as (_ & _ & _ & _ & Hv).
  destruct (claim_eye_exact dbg n b w g (x, y) (gm_turn g) HG Hp) as (v & Ev & Hi).
  rewrite Ev in Hv. injection Hv as ->. split; [exact Hf|]. split; [apply Hi; reflexivity|]. split; assumption.
Qed.

(** two new games under the same prohibitions: the moves of one, turned or
    reflected, are answered in the other alike *)
Lemma image_whole dbg dbg' n s r r' k ms g h : 1 <= n -> size_of s = (n, n) -> k < 8 ->
  game_new s r = Ok g -> game_new s r' = Ok h -> flag_illegal r' = flag_illegal r -> forbids_fill_eye r = false ->
  (forall x y, MPlay x y ∈ ms -> on n (x, y)) -> (N.of_nat (length ms) <= 65535)%N ->
  exists g' h' tr,
    run dbg g (List.map OTry ms) = Ok (g', tr) /\
    run dbg' h (List.map OTry (List.map (image_move (square_symmetry n k) (fun c => c)) ms)) = Ok (h', tr) /\
    (forall p, on n p -> position h' (square_symmetry n k p) = position g' p) /\
    gm_turn h' = gm_turn g' /\ gm_passes h' = gm_passes g' /\ gm_outcome h' = gm_outcome g' /\ gm_prisoners h' = gm_prisoners g'.
Proof.
  intros H1 Hs Hk Hg Hh Hf He Hm Hl.
  assert (HG : greach dbg n 0 0 g) by (apply (gr_new dbg n s r g); assumption).
  assert (HH : greach dbg' n 0 0 h) by (apply (gr_new dbg' n s r' h); assumption).
  destruct (start_table dbg n s r g H1 Hs Hg) as [A _]. destruct (start_table dbg' n s r' h H1 Hs Hh) as [B _].
  pose proof (sa_pos _ _ _ A) as A1. pose proof (sa_pos _ _ _ B) as B1. clear A B.
  unfold game_new in Hg, Hh. apply bind_ok in Hg as (gb & Eg & Hg). rewrite Eg in Hh. cbn [bind] in Hh.
  injection Hg as <-. injection Hh as <-.
  destruct (image_run n _ _ _ dbg dbg' ms (square_ok n k (fun c => c) Hk (fun c => eq_refl)) 0 0 0 0 _ _ HG HH) as (g' & h' & tr & R1 & R2 & I1 & _ & I3).
  - constructor; cbn [gm_turn gm_passes gm_outcome gm_ko_point gm_rule option_map]; try reflexivity; [|exact Hf].
    intros p Hp. pose proof (A1 p Hp) as A2. pose proof (B1 _ (sy_on _ _ _ _ (square_ok n k (fun c => c) Hk (fun c => eq_refl)) p Hp)) as B2.
    unfold table_of, start in A2, B2. cbn [t_pos] in A2, B2. rewrite B2. unfold position, gm_goban in A2 |- *. rewrite A2. reflexivity.
  - constructor.
  - intros []; reflexivity.
  - exact Hm.
  - exact Hl.
  - exact Hl.
  - left. exact He.
  - exists g', h', tr. split; [exact R1|].
    replace (List.map (image_event (fun c => c)) tr) with tr in R2 by (clear; induction tr as [|[] tr IH]; cbn; congruence).
    split; [exact R2|]. destruct I1 as [P1 P2 P3 P4 _ _]. split.
    { intros p Hp. rewrite (P1 p Hp). destruct (position g' p); reflexivity. }
    split; [exact P2|]. split; [exact P3|]. split; [rewrite P4; destruct (gm_outcome g') as [[]|]; reflexivity|].
    pose proof (I3 Black) as Q1. pose proof (I3 White) as Q2. unfold caught in Q1, Q2. destruct (gm_prisoners g'), (gm_prisoners h'). cbn in *. congruence.
Qed.

Lemma case_whole dbg dbg' : exists g h g' h' tr, size_of (Custom 9 9) = (9, 9) /\ game_new (Custom 9 9) JAPANESE = Ok g /\ game_new (Custom 9 9) JAPANESE = Ok h /\
  forbids_fill_eye JAPANESE = false /\ (forall x y, MPlay x y ∈ ko_moves -> on 9 (x, y)) /\ (N.of_nat (length ko_moves) <= 65535)%N /\
  run dbg g (List.map OTry ko_moves) = Ok (g', tr) /\
  run dbg' h (List.map OTry (List.map (image_move (square_symmetry 9 5) (fun c => c)) ko_moves)) = Ok (h', tr) /\ 7 <= turns tr.
Proof.
  destruct (game_new (Custom 9 9) JAPANESE) as [g| |] eqn:E; [|vm_compute in E; discriminate..].
  assert (Hm : forall x y, MPlay x y ∈ ko_moves -> on 9 (x, y)).
  { intros x y H. unfold ko_moves in H. rewrite !elem_of_cons, elem_of_nil in H. repeat (destruct H as [H|H]; [injection H as -> ->; on_|]). contradiction. }
  assert (Hl : (N.of_nat (length ko_moves) <= 65535)%N) by (vm_compute; discriminate).
  destruct (image_whole dbg dbg' 9 (Custom 9 9) JAPANESE JAPANESE 5 ko_moves g g) as (g' & h' & tr & R1 & R2 & _); try assumption; try reflexivity; [lia..|].
  exists g, g, g', h', tr. repeat (split; [assumption || reflexivity|]).
  assert (T : match (let! g := game_new (Custom 9 9) JAPANESE in run dbg g (List.map OTry ko_moves)) with Ok (_, tr) => 7 <=? turns tr | _ => false end = true) by (destruct dbg; vm_compute; reflexivity).
  rewrite E in T. cbn [bind] in T. rewrite R1 in T. apply Nat.leb_le, T.
Qed.

(** [eye_moves] and its image under half a turn, then Black into the point in the middle *)
Definition EYES : rule := mkRule (f32_make 13 (-1)) 8 3.
Definition into_eye : list move := eye_moves ++ [MPass; MPlay 2 2].

Lemma turned_eye_answers dbg : exists g g' h' tr tr', game_new (Custom 5 5) EYES = Ok g /\ forbids_fill_eye EYES = true /\
  (forall x y, MPlay x y ∈ into_eye -> on 5 (x, y)) /\
  run dbg g (List.map OTry into_eye) = Ok (g', tr) /\
  run dbg g (List.map OTry (List.map (image_move (square_symmetry 5 3) (fun c => c)) into_eye)) = Ok (h', tr') /\
  position g' (2, 2) = None /\ position h' (square_symmetry 5 3 (2, 2)) = Some Black /\ turns tr' = S (turns tr).
Proof.
  destruct (game_new (Custom 5 5) EYES) as [g| |] eqn:E; [|vm_compute in E; discriminate..].
  assert (T : match (let! g := game_new (Custom 5 5) EYES in
                     let! a := run dbg g (List.map OTry into_eye) in
                     let! b := run dbg g (List.map OTry (List.map (image_move (square_symmetry 5 3) (fun c => c)) into_eye)) in Ok (a, b)) with
    | Ok ((g', tr), (h', tr')) => bool_decide (position g' (2, 2) = None) && bool_decide (position h' (square_symmetry 5 3 (2, 2)) = Some Black) && (turns tr' =? S (turns tr))
    | _ => false end = true) by (destruct dbg; vm_compute; reflexivity).
  rewrite E in T. cbn [bind] in T.
  destruct (run dbg g (List.map OTry into_eye)) as [[g' tr]| |] eqn:R1; try discriminate. cbn [bind] in T.
  destruct (run dbg g (List.map OTry (List.map _ into_eye))) as [[h' tr']| |] eqn:R2; try discriminate. cbn [bind] in T.
  rewrite !andb_true_iff, !bool_decide_eq_true, Nat.eqb_eq in T. destruct T as ((T1 & T2) & T3).
  exists g, g', h', tr, tr'. split; [reflexivity|]. split; [reflexivity|]. split; [|auto].
  intros x y H. unfold into_eye, eye_moves in H. cbn [app] in H. rewrite !elem_of_cons, elem_of_nil in H.
  repeat (destruct H as [H|H]; [first [discriminate | injection H as -> ->; on_]|]). contradiction.
Qed.
