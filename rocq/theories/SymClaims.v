(** A concrete case for the theorems about scores under symmetries. *)
From stdpp Require Import relations.
From Verif Require Import SymSpec ScoreSpec Spec Observe Ops.
From Verif Require Import Push Inv Remove Capture Bridge MonadFacts GameFacts RulesFacts LegalFacts ClaimFacts SymFacts SymScore.
From Verif Require Export CaseFacts.
From Coq Require Import Lia.

Local Notation length := Datatypes.length.
Open Scope nat_scope.

(** ko and suicide forbidden; stones and prisoners count, komi does not *)
Definition NO_KOMI : rule := mkRule (f32_make 13 (-1)) 5 5.
Definition turned (p : coord) : coord := square_symmetry 5 5 p.
Definition fight : list coord := [(0, 1); (0, 0); (1, 0); (4, 4)].
Definition fight_moves : list move := List.map (fun p : coord => MPlay (fst p) (snd p)) fight ++ [MPass; MPass].
Definition turned_moves : list move := MPass :: List.map (fun p : coord => MPlay (fst (turned p)) (snd (turned p))) fight ++ [MPass; MPass].

(** [g] shows the stones of [l] and no others *)
Definition shows (g : game) (l : list stone) : bool := bool_decide (List.map (position g) (points 5) = List.map (stones_at l) (points 5)).

Definition before : list stone := [((0, 1), Black); ((1, 0), Black); ((4, 4), White)].
Definition after : list stone := List.map (fun x : stone => (turned (fst x), opp (snd x))) before.

(** a game on the 5 x 5 board and the same with colours exchanged, a quarter turn apart *)
Lemma case_scores dbg dbg' : exists g h b w b' w',
  board_sym 5 (square_symmetry 5 5) (square_symmetry 5 6) opp /\ greach dbg 5 b w g /\ greach dbg' 5 b' w' h /\
  image_game 5 (square_symmetry 5 5) opp g h /\ image_caught opp g h /\ flag_score (gm_rule h) = flag_score (gm_rule g) /\
  (fst (gm_prisoners g) < 1000000)%N /\ (snd (gm_prisoners g) < 1000000)%N /\ N.testbit (flag_score (gm_rule g)) 1 = false /\
  calculate_score_by (fun l => l) dbg g 5 = Ok (f32_of_N 4, f32_of_N 1) /\ outcome (fun l => l) dbg g = Ok (Some (WinnerByScore Black (f32_of_N 3))) /\
  outcome (fun l => l) dbg' h = Ok (Some (WinnerByScore White (f32_of_N 3))).
Proof.
  destruct (sampleb dbg 5 NO_KOMI fight_moves (fun g => shows g before && bool_decide (gm_turn g = Black) && (gm_passes g =? 2) && bool_decide (gm_ko_point g = None) &&
     bool_decide (gm_prisoners g = (1, 0)%N) && bool_decide (flag_score (gm_rule g) = 5%N) && bool_decide (flag_illegal (gm_rule g) = 5%N) &&
     match gm_outcome g with None => true | _ => false end && 
     match calculate_score_by (fun l => l) dbg g 5 with Ok (a, b) => bool_decide (a = f32_of_N 4) && bool_decide (b = f32_of_N 1) | _ => false end &&
     match outcome (fun l => l) dbg g with Ok (Some (WinnerByScore Black x)) => bool_decide (x = f32_of_N 3) | _ => false end) ltac:(lia)) as (g & b & w & HG & _ & F); [destruct dbg; vm_compute; reflexivity|].
  destruct (sampleb dbg' 5 NO_KOMI turned_moves (fun h => shows h after && bool_decide (gm_turn h = White) && (gm_passes h =? 2) && bool_decide (gm_ko_point h = None) &&
     bool_decide (gm_prisoners h = (0, 1)%N) && bool_decide (flag_score (gm_rule h) = 5%N) && bool_decide (flag_illegal (gm_rule h) = 5%N) &&
     match gm_outcome h with None => true | _ => false end &&
     match outcome (fun l => l) dbg' h with Ok (Some (WinnerByScore White x)) => bool_decide (x = f32_of_N 3) | _ => false end) ltac:(lia)) as (h & b' & w' & HH & _ & G); [destruct dbg'; vm_compute; reflexivity|].
  bools F. bools G. exists g, h, b, w, b', w'.
  assert (B : board_sym 5 (square_symmetry 5 5) (square_symmetry 5 6) opp) by (apply (square_ok 5 5 opp); [lia|apply opp_invol]).
  repeat match goal with H : bool_decide _ = true |- _ => apply bool_decide_eq_true in H | H : (_ =? _) = true |- _ => apply Nat.eqb_eq in H end.
  destruct (gm_outcome g) eqn:Og; [discriminate|]. destruct (gm_outcome h) eqn:Oh; [discriminate|].
  destruct (calculate_score_by (fun l => l) dbg g 5) as [[sb sw]| |] eqn:Sg; try discriminate.
  destruct (outcome (fun l => l) dbg g) as [[[c x| | | |]|]| |] eqn:Eg; try discriminate.
  destruct (outcome (fun l => l) dbg' h) as [[[c0 y| | | |]|]| |] eqn:Eh; try discriminate.
  destruct c; try discriminate. destruct c0; try discriminate.
  repeat match goal with H : (_ && _) = true |- _ => apply andb_true_iff in H as [? ?] end.
  repeat match goal with H : bool_decide _ = true |- _ => apply bool_decide_eq_true in H end.
  subst. split; [exact B|]. split; [exact HG|]. split; [exact HH|].
  assert (IC : image_caught opp g h) by (intros []; unfold caught; cbn [opp]; match goal with H : gm_prisoners g = _, H' : gm_prisoners h = _ |- _ => rewrite H, H' end; reflexivity).
  assert (IM : image_game 5 (square_symmetry 5 5) opp g h).
  { split; try congruence.
    - unfold shows in F, G. apply bool_decide_eq_true in F, G. intros p Hp. rewrite (shown 5 _ _ _ G (sy_on _ _ _ _ B p Hp)), (shown 5 _ _ _ F Hp).
      assert (K : forallb (fun q => bool_decide (stones_at after (square_symmetry 5 5 q) = option_map opp (stones_at before q))) (points 5) = true) by (vm_compute; reflexivity).
      rewrite List.forallb_forall in K. specialize (K p ltac:(apply elem_of_list_In, elem_of_points, Hp)). apply bool_decide_eq_true in K. exact K.
    - match goal with H : gm_turn g = _, H' : gm_turn h = _ |- _ => rewrite H, H' end. reflexivity.
    - rewrite Og, Oh. reflexivity.
    - match goal with H : gm_ko_point g = _, H' : gm_ko_point h = _ |- _ => rewrite H, H' end. reflexivity. }
  split; [exact IM|]. split; [exact IC|]. split; [congruence|].
  match goal with H : gm_prisoners g = _, H' : flag_score (gm_rule g) = _ |- _ => rewrite H, H' end.
  repeat split; vm_compute; reflexivity.
Qed.
