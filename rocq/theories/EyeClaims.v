(** A concrete case for the eye check under symmetries: an eye with one empty
    corner, and the board turned by half a turn. *)
From stdpp Require Import relations.
From Verif Require Import SymSpec EyeSpec.
From Verif Require Import Push Inv Remove Capture Bridge MonadFacts GameFacts RulesFacts BoardFacts LegalFacts ClaimFacts SymFacts.
From Verif Require Import CaseFacts.
From Coq Require Import Lia.

Open Scope nat_scope.

Definition eye_wall : list coord := [(1, 2); (2, 1); (2, 3); (3, 2); (1, 1); (1, 3); (3, 3); (4, 0); (2, 0)].
Definition turn_half (p : coord) : coord := square_symmetry 5 3 p.
Definition eye_moves (f : coord -> coord) : list move := flat_map (fun p => [MPlay (fst (f p)) (snd (f p)); MPass]) eye_wall.
Definition eye_stones (f : coord -> coord) : list stone := List.map (fun p => (f p, Black)) eye_wall.

Lemma case_eye_image dbg dbg' : exists b w b' w' g h, board_sym 5 turn_half turn_half (fun c => c) /\ greach dbg 5 b w g /\ greach dbg' 5 b' w' h /\
  image 5 turn_half (fun c => c) (position g) (position h) /\ on 5 (2, 2) /\
  (forall q, on 5 q -> diag (2, 2) q -> position g q = None -> ~ attacked 5 (position g) Black q) /\
  position g (3, 1) = None /\ diag (2, 2) (3, 1) /\ check_eye dbg g ((2, 2), Black) = Ok true.
Proof.
  destruct (sample_position dbg 5 JAPANESE (eye_moves (fun p => p)) (eye_stones (fun p => p)) (fun g => ok_is (check_eye dbg g ((2, 2), Black)) true) ltac:(lia)) as (g & b & w & HG & _ & F & P); [destruct dbg; vm_compute; reflexivity|].
  destruct (sample_position dbg' 5 JAPANESE (eye_moves turn_half) (eye_stones turn_half) (fun _ => true) ltac:(lia)) as (h & b' & w' & HH & _ & _ & P'); [destruct dbg'; vm_compute; reflexivity|].
  assert (B : board_sym 5 turn_half turn_half (fun c => c)) by (apply (square_ok 5 3 (fun c => c)); [lia|reflexivity]).
  exists b, w, b', w', g, h. split; [exact B|]. split; [exact HG|]. split; [exact HH|]. split.
  { intros p Hp. unfold position. rewrite (P p Hp), (P' _ (sy_on _ _ _ _ B p Hp)).
    assert (K : forallb (fun q => bool_decide (stones_at (eye_stones turn_half) (turn_half q) = option_map (fun c => c) (stones_at (eye_stones (fun p => p)) q))) (points 5) = true) by (vm_compute; reflexivity).
    rewrite List.forallb_forall in K. specialize (K p ltac:(apply elem_of_list_In, elem_of_points, Hp)). apply bool_decide_eq_true in K. exact K. }
  split; [on_|]. split.
  { intros q _ _ _ (r & Hr & _ & E). unfold position in E. rewrite (P r Hr) in E. unfold stones_at in E.
    destruct (List.find _ _) as [s|] eqn:Ef; [|discriminate]. apply List.find_some in Ef as [Ef _]. unfold eye_stones in Ef. apply List.in_map_iff in Ef as (t & <- & _). discriminate. }
  split; [unfold position; rewrite P by on_; reflexivity|]. split; [unfold diag; cbn; lia|]. apply ok_is_eq, F.
Qed.
