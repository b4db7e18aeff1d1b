(** Concrete cases for the theorems about games that are worth the same. *)
From stdpp Require Import relations.
From Verif Require Import ValueSpec Spec Observe Ops ScoreSpec RoundSpec AreaSpec Samples.
From Verif Require Import MonadFacts Push Inv Remove Capture Bridge GameFacts RulesFacts SymFacts RefuteFacts CaseFacts SymClaims BenchSgfFacts RectSymSpec RectSpec RectReach RectTable RectTableSpec RectSymFacts RectSwap RectScore RectSymClaims TallPoint RectLegal StrategyFacts StealFacts KomiClaims ValueFacts.
From Coq Require Import Lia.

Local Notation length := Datatypes.length.
Local Open Scope nat_scope.

(** the game after the moves, all of them accepted *)
Fixpoint follow (dbg : bool) (g : game) (ms : list move) : option game :=
  match ms with
  | [] => Some g
  | m :: ms => match try_play dbg g m with Ok (g1, Accepted) => follow dbg g1 ms | _ => None end
  end.

Lemma follow_accepted dbg ms : forall g g', follow dbg g ms = Some g' -> all_accepted dbg g ms g'.
Proof.
  induction ms as [|m ms IH]; intros g g' H; cbn in *; [congruence|]. destruct (try_play dbg g m) as [[g1 []]| |]; try discriminate. exists g1. split; [reflexivity|]. apply IH, H.
Qed.

Definition follows (dbg : bool) (s : goban_sizes) (r : rule) (ms : list move) (t : game -> bool) : bool :=
  match game_new s r with Ok g => match follow dbg g ms with Some g' => t g' | None => false end | _ => false end.

Lemma followed dbg s r ms t : follows dbg s r ms t = true -> exists g g', game_new s r = Ok g /\ all_accepted dbg g ms g' /\ t g' = true.
Proof.
  unfold follows. intros H. destruct (game_new s r) as [g| |]; try discriminate. destruct (follow dbg g ms) as [g'|] eqn:E; [|discriminate].
  exists g, g'. split; [reflexivity|]. split; [apply follow_accepted, E|exact H].
Qed.

Lemma ko_moves_plain n : 4 <= fst n -> 4 <= snd n -> Forall (rplain n) ko_moves.
Proof. intros H1 H2. unfold ko_moves. repeat constructor; cbn; lia. Qed.

(** nine moves on a 9 x 9 board, the last a capture in a ko *)
Lemma case_openings dbg : exists g g', size_of (Custom 9 9) = (9, 9) /\ game_new (Custom 9 9) JAPANESE = Ok g /\ forbids_fill_eye JAPANESE = false /\
  Forall (rplain (9, 9)) ko_moves /\ all_accepted dbg g ko_moves g' /\ gm_ko_point g' = Some (1, 1) /\ square_symmetry 9 5 (1, 1) = (1, 7).
Proof.
  destruct (followed dbg (Custom 9 9) JAPANESE ko_moves (fun g => bool_decide (gm_ko_point g = Some (1, 1)))) as (g & g' & E & A & T); [destruct dbg; vm_compute; reflexivity|].
  exists g, g'. split; [reflexivity|]. split; [exact E|]. split; [reflexivity|]. split; [apply ko_moves_plain; cbn; lia|]. split; [exact A|]. split; [apply bool_decide_eq_true in T; exact T|reflexivity].
Qed.

(** that game and the same a quarter turn later *)
Lemma case_value dbg dbg' : exists g h b w b' w', board_sym 9 (square_symmetry 9 5) (square_symmetry 9 6) (fun c => c) /\ greach dbg 9 b w g /\ greach dbg' 9 b' w' h /\
  image_game 9 (square_symmetry 9 5) (fun c => c) g h /\ image_history 9 (square_symmetry 9 5) (fun c => c) g h /\ image_caught (fun c => c) g h /\ gm_rule h = gm_rule g /\
  length (chains (gm_goban h)) = length (chains (gm_goban g)) /\ forbids_fill_eye (gm_rule g) = false /\
  gm_rule g = JAPANESE /\ gm_ko_point g = Some (1, 1) /\ gm_ko_point h = Some (1, 7).
Proof.
  destruct (case_openings dbg) as (g & g' & Hs & E & Eye & P & A & K & _). destruct (new_fields _ _ _ _ E Hs) as (T & Hp & Hpr & Ho & Hko & Hh & Hr).
  pose proof (square_ok 9 5 (fun c => c) ltac:(lia) (fun c => eq_refl)) as Y. pose proof (square_rsym _ _ _ _ Y) as Y'.
  destruct (rstart_table dbg (9, 9) _ _ g (square_divide 9) ltac:(cbn; lia) ltac:(cbn; lia) Hs E) as [ST HG]. destruct (rstart_table dbg' (9, 9) _ _ g (square_divide 9) ltac:(cbn; lia) ltac:(cbn; lia) Hs E) as [_ HG'].
  assert (Empty : forall p, ron (9, 9) p -> position g p = None) by exact (rsa_pos _ _ _ ST).
  assert (S : mirrored dbg dbg' (9, 9) JAPANESE (square_symmetry 9 5) (fun c => c) g g).
  { split; [eauto|eauto| | |intros c; reflexivity|exact Hr|exact Hr|reflexivity].
    - split; try reflexivity; try rewrite Ho; try rewrite Hko; try reflexivity. intros p On. rewrite (Empty p On). apply Empty, (rsy_on _ _ _ _ Y' p On).
    - unfold rimage_history. rewrite Hh. constructor. }
  destruct (mirrored_line (9, 9) JAPANESE (fun c => c) (square_divide 9) dbg dbg' _ _ ko_moves Y' (or_introl eq_refl) g g g' S P A) as (h' & _ & [(b & w & HX) (b' & w' & HY) I Ih IC R R' L]).
  exists g', h', b, w, b', w'. split; [exact Y|]. split; [exact (rgreach_square _ _ _ _ _ _ eq_refl HX)|]. split; [exact (rgreach_square _ _ _ _ _ _ eq_refl HY)|].
  pose proof (rim_ko _ _ _ _ _ I) as Ik. rewrite K in Ik.
  split; [destruct I; split; assumption|]. split; [exact Ih|]. split; [exact IC|]. split; [congruence|]. split; [exact L|]. rewrite R. split; [reflexivity|]. split; [reflexivity|]. split; [exact K|exact Ik].
Qed.

(** the game without komi in which Black makes the first move, and the one in which White does *)
Lemma case_exchanged dbg dbg' : exists g h b w b' w', Nat.divide 4 8 /\ rgreach dbg (8, 4) b w g /\ rgreach dbg' (8, 4) b' w' h /\
  rimage_game (8, 4) (fun p => p) opp g h /\ rimage_history (8, 4) (fun p => p) opp g h /\ image_caught opp g h /\ gm_rule h = gm_rule g /\
  length (chains (gm_goban h)) = length (chains (gm_goban g)) /\ N.testbit (flag_score (gm_rule g)) 1 = false /\
  position g (1, 2) = Some Black /\ position h (1, 2) = Some White /\ gm_ko_point h = Some (1, 1).
Proof.
  assert (D : Nat.divide 4 8) by (exists 2; reflexivity).
  destruct (followed dbg (Custom 8 4) NO_KOMI ko_moves (fun g => bool_decide (gm_ko_point g = Some (1, 1)) && bool_decide (position g (1, 2) = Some Black))) as (g & g' & E & A & F); [destruct dbg; vm_compute; reflexivity|].
  apply andb_true_iff in F as [F1 F2]. apply bool_decide_eq_true in F1, F2.
  assert (Hs : size_of (Custom 8 4) = (8, 4)) by reflexivity. destruct (new_fields _ _ _ _ E Hs) as (T & Hp & Hpr & Ho & Hko & Hh & Hr).
  destruct (rstart_table dbg (8, 4) _ _ g D ltac:(cbn; lia) ltac:(cbn; lia) Hs E) as [ST HG]. destruct (rstart_table dbg' (8, 4) _ _ g D ltac:(cbn; lia) ltac:(cbn; lia) Hs E) as [_ HG'].
  assert (Empty : forall p, ron (8, 4) p -> position g p = None) by exact (rsa_pos _ _ _ ST).
  set (g1 := mkGame (gm_goban g) 1 (gm_prisoners g) (gm_outcome g) White (gm_rule g) (gm_handicap g) (gm_history g) None).
  assert (HG1 : rgreach dbg' (8, 4) 0 0 g1) by (eapply rg_pass; [exact HG'|]; unfold play; rewrite Hp, T; reflexivity).
  assert (S : mirrored dbg dbg' (8, 4) NO_KOMI (fun p => p) opp g (resume g1)).
  { split; [eauto|exists 0, 0; apply rg_resume, HG1| | | |exact Hr|exact Hr|reflexivity].
    - split; cbn; try rewrite T; try rewrite Ho; try rewrite Hko; try reflexivity; [|symmetry; exact Hp]. intros p On. cbn. change (position (resume g1) p) with (position g p). rewrite (Empty p On). reflexivity.
    - unfold rimage_history. cbn. rewrite Hh. constructor.
    - intros c. unfold caught. cbn. rewrite Hpr. destruct c; reflexivity. }
  destruct (mirrored_line (8, 4) NO_KOMI opp D dbg dbg' _ _ ko_moves (rswap_sym (8, 4)) (or_introl eq_refl) g _ g' S (ko_moves_plain (8, 4) ltac:(cbn; lia) ltac:(cbn; lia)) A) as (h' & _ & [(b & w & HX) (b' & w' & HY) I Ih IC R R' L]).
  exists g', h', b, w, b', w'. pose proof (rim_ko _ _ _ _ _ I) as Ik. rewrite F1 in Ik. pose proof (rim_pos _ _ _ _ _ I (1, 2) ltac:(split; cbn; lia)) as Ip. cbn beta in Ip. rewrite F2 in Ip.
  do 3 (split; [assumption|]). split; [exact I|]. split; [exact Ih|]. split; [exact IC|]. split; [congruence|]. split; [exact L|]. rewrite R. split; [reflexivity|]. split; [exact F2|]. split; [exact Ip|exact Ik].
Qed.

(** the same four stones put down in two orders *)
Lemma case_alike dbg dbg' : exists g h b w b' w', Nat.divide 3 6 /\ rgreach dbg (6, 3) b w g /\ rgreach dbg' (6, 3) b' w' h /\ rlook_alike (6, 3) g h /\
  length (chains (gm_goban h)) = length (chains (gm_goban g)) /\ group_no (gm_goban g) (3, 0) <> group_no (gm_goban h) (3, 0).
Proof.
  assert (D : Nat.divide 3 6) by (exists 2; reflexivity).
  destruct (build_inner dbg (rset_up rfour)) as [g| |] eqn:E; [|destruct dbg; vm_compute in E; discriminate..].
  destruct (build_inner dbg' (rset_up (rev rfour))) as [h| |] eqn:E'; [|destruct dbg'; vm_compute in E'; discriminate..].
  assert (Nd : NoDup rfour.*1) by (vm_compute; repeat constructor; rewrite ?elem_of_cons, ?elem_of_nil; intuition congruence).
  assert (On : forall s, s ∈ rfour -> ron (6, 3) (fst s)).
  { intros s Hs. unfold rfour in Hs. rewrite !elem_of_cons, elem_of_nil in Hs. destruct Hs as [->|[->|[->|[->|[]]]]]; unfold ron; cbn; lia. }
  exists g, h, 2, 2, 2, 2. split; [exact D|].
  split; [apply (rg_build dbg (6, 3) (rset_up rfour) g); [cbn; lia|cbn; lia|reflexivity|reflexivity|exact Nd|exact On|exact E]|].
  split; [apply (rg_build dbg' (6, 3) (rset_up (rev rfour)) h); [cbn; lia|cbn; lia|reflexivity|reflexivity| |..|exact E']|].
  { vm_compute; repeat constructor; rewrite ?elem_of_cons, ?elem_of_nil; intuition congruence. }
  { intros s Hs. apply On. unfold setup_stones in Hs. cbn [b_handicap_points b_setup rset_up List.map app] in Hs. apply elem_of_list_In, in_rev, elem_of_list_In in Hs. exact Hs. }
  assert (B : rsame_pos (6, 3) (position g) (position h) /\ (gm_turn g, gm_passes g, gm_outcome g, gm_ko_point g, gm_prisoners g) = (gm_turn h, gm_passes h, gm_outcome h, gm_ko_point h, gm_prisoners h)
     /\ gm_rule g = gm_rule h /\ gm_history g = [] /\ gm_history h = [] /\ length (chains (gm_goban h)) = length (chains (gm_goban g)) /\ group_no (gm_goban g) (3, 0) <> group_no (gm_goban h) (3, 0)).
  { destruct dbg, dbg'; vm_compute in E, E'; injection E as <-; injection E' as <-; (split; [apply rsame_pos_b; vm_compute; reflexivity|repeat split; vm_compute; congruence]). }
  destruct B as (P & Q & R & H1 & H2 & G1 & G2). injection Q as Q1 Q2 Q3 Q4 Q5.
  split; [constructor; try assumption; rewrite H1, H2; constructor|]. split; [exact G1|exact G2].
Qed.

(** nine moves on a 8 x 4 board *)
Lemma case_builds dbg : exists g g', Nat.divide 4 8 /\ size_of (Custom 8 4) = (8, 4) /\ game_new (Custom 8 4) JAPANESE = Ok g /\
  Forall (rplain (8, 4)) ko_moves /\ all_accepted dbg g ko_moves g' /\ gm_ko_point g' = Some (1, 1).
Proof.
  destruct (followed dbg (Custom 8 4) JAPANESE ko_moves (fun g => bool_decide (gm_ko_point g = Some (1, 1)))) as (g & g' & E & A & T); [destruct dbg; vm_compute; reflexivity|].
  exists g, g'. split; [exists 2; reflexivity|]. split; [reflexivity|]. split; [exact E|]. split; [apply ko_moves_plain; cbn; lia|]. split; [exact A|apply bool_decide_eq_true in T; exact T].
Qed.

(** ** On a board that is not square a reflected opening can be worth something else *)
Theorem reflected_opening dbg : exists g g' h', game_new (Custom 6 3) CHINESE = Ok g /\ forbids_fill_eye CHINESE = false /\ Forall (rplain (6, 3)) wrong_moves /\
  all_accepted dbg g wrong_moves g' /\ all_accepted dbg g (List.map (image_move (rectangle_symmetry (6, 3) 2) (fun c => c)) wrong_moves) h' /\
  forces dbg (6, 3) Black (won dbg Black) g' /\ forces dbg (6, 3) White (won dbg White) h' /\ ~ same_value dbg dbg (6, 3) (fun c => c) g' h'.
Proof.
  destruct (turned_winner dbg) as (g & g' & h' & tr & E & R & R' & L & Ov & Ov' & _ & O).
  assert (WB : won dbg Black g') by (intros order Ho; eexists; split; [apply (O order Ho)|reflexivity]).
  assert (WW : won dbg White h') by (intros order Ho; eexists; split; [apply (O order Ho)|reflexivity]).
  exists g, g', h'. split; [exact E|]. split; [reflexivity|]. split; [unfold wrong_moves; repeat constructor; cbn; lia|].
  split; [apply (run_accepted dbg wrong_moves g g' tr R), L|]. split; [apply (run_accepted dbg _ g h' tr R'); rewrite List.map_length; exact L|].
  split; [apply fo_over; assumption|]. split; [apply fo_over; assumption|].
  intros V. destruct (V Black) as [[V1 _] _]. pose proof (V1 (fo_over _ _ _ _ _ Ov WB)) as F. inversion F as [x _ W|x m x' X|x X]; subst; [|congruence..].
  destruct (W (fun l => l) (fun l => Permutation_refl l)) as (e & Ee & We). destruct (WW (fun l => l) (fun l => Permutation_refl l)) as (e' & Ee' & We'). congruence.
Qed.
