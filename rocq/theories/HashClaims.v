(** Concrete cases for the theorems about hashes. *)
From Verif Require Import Spec Observe Ops RulesFacts Bridge GameFacts BoardFacts ClaimFacts.
From Verif Require Import CaseFacts.
From Coq Require Import Lia.

Local Notation length := Datatypes.length.
Open Scope nat_scope.

(** two boards that differ in three points: stones of either colour and none *)
Lemma case_three dbg : exists m m' a b,
  breach dbg 9 m a /\ breach dbg 9 m' b /\ length [(4, 4); (5, 5); (2, 2)] <= 3 /\
  (forall p, on 9 p -> pos_of a p <> pos_of b p -> p ∈ [(4, 4); (5, 5); (2, 2)]) /\
  pos_of a (4, 4) <> pos_of b (4, 4) /\ pos_of a (5, 5) <> pos_of b (5, 5) /\ pos_of a (2, 2) <> pos_of b (2, 2).
Proof.
  destruct (sample_position dbg 9 JAPANESE [MPlay 1 1; MPlay 2 2; MPlay 4 4] [((1, 1), Black); ((2, 2), White); ((4, 4), Black)] (fun _ => true) ltac:(lia)) as (g & b & w & HG & _ & _ & P); [destruct dbg; vm_compute; reflexivity|].
  destruct (sample_position dbg 9 JAPANESE [MPlay 1 1; MPlay 5 5; MPlay 2 2] [((1, 1), Black); ((2, 2), Black); ((5, 5), White)] (fun _ => true) ltac:(lia)) as (g' & b' & w' & HG' & _ & _ & P'); [destruct dbg; vm_compute; reflexivity|].
  exists (b + w), (b' + w'), (gm_goban g), (gm_goban g'). split; [exact (br_game _ _ _ _ _ HG)|]. split; [exact (br_game _ _ _ _ _ HG')|]. split; [cbn; lia|].
  split; [|rewrite !P, !P' by on_; repeat split; discriminate].
  intros p Hp. rewrite (P p Hp), (P' p Hp). intros D. rewrite !elem_of_cons.
  destruct (decide (p = (4, 4))); [tauto|]. destruct (decide (p = (5, 5))); [tauto|]. destruct (decide (p = (2, 2))); [tauto|]. exfalso. apply D.
  unfold stones_at. cbn [List.find fst]. destruct (coord_eqb (1, 1) p); [reflexivity|].
  destruct (coord_eqb (2, 2) p) eqn:E2; [apply coord_eqb_eq in E2; congruence|]. destruct (coord_eqb (4, 4) p) eqn:E4; [apply coord_eqb_eq in E4; congruence|].
  destruct (coord_eqb (5, 5) p) eqn:E5; [apply coord_eqb_eq in E5; congruence|]. reflexivity.
Qed.

Lemma case_hash_move dbg : exists g g' b w, greach dbg 9 b w g /\ forbids_suicide (gm_rule g) = true /\ on 9 (1, 2) /\
  try_play dbg g (MPlay 1 2) = Ok (g', Accepted) /\ count 9 (position g) (opp (gm_turn g)) <= count 9 (position g') (opp (gm_turn g)) + 2 /\
  count 9 (position g') (opp (gm_turn g)) < count 9 (position g) (opp (gm_turn g)).
Proof.
  destruct (sampleb dbg 9 JAPANESE (removelast ko_moves) (fun g => forbids_suicide (gm_rule g) &&
     match try_play dbg g (MPlay 1 2) with Ok (g', Accepted) => (count 9 (position g) (opp (gm_turn g)) <=? count 9 (position g') (opp (gm_turn g)) + 2) && 
        (count 9 (position g') (opp (gm_turn g)) <? count 9 (position g) (opp (gm_turn g))) | _ => false end) ltac:(lia)) as (g & b & w & HG & L & F); [destruct dbg; vm_compute; reflexivity|].
  destruct (try_play dbg g (MPlay 1 2)) as [[g' []]| |] eqn:E; bools F; try discriminate. apply andb_true_iff in F0 as [F0 F1]. apply Nat.leb_le in F0. apply Nat.ltb_lt in F1.
  exists g, g', b, w. split; [exact HG|]. split; [exact F|]. split; [on_|]. auto.
Qed.
