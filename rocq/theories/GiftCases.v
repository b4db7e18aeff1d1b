(** Concrete cases for the theorems about handicap stones and passes. *)
From stdpp Require Import relations.
From Verif Require Import GiftSpec Spec Observe Reach Ops Samples Game MonadFacts GameFacts RefuteFacts CaseFacts.
From Verif Require Import RectBridge RectSpec RectReach RectGo RectInv RectGame RectSymFacts RectSymClaims PastFacts PastCases OrderCases GiftFacts.
From Coq Require Import Lia.
Local Notation length := Datatypes.length.
Local Open Scope nat_scope.

Definition gift_points : list coord := [(1, 1); (1, 2); (3, 2)].

Lemma gift_nodup : NoDup gift_points.
Proof. repeat (constructor; [rewrite ?elem_of_cons, elem_of_nil; intuition discriminate|]). constructor. Qed.

(** two stones are on the board when three more are given *)
Lemma case_gift dbg dbg' : exists g g1 g2 b w b' w', Nat.divide 4 8 /\ rgreach dbg (8, 4) b w g /\ rgreach dbg' (8, 4) b' w' g /\
  gift_points <> [] /\ NoDup gift_points /\ (forall p, p ∈ gift_points -> ron (8, 4) p /\ position g p = None) /\ gm_turn g = Black /\ gm_passes g = 0 /\ gm_ko_point g = None /\
  put_handicap dbg g gift_points = Ok g1 /\ all_accepted dbg' g (with_passes gift_points) g2 /\ gm_prisoners g2 = gm_prisoners g /\
  forbids_superko (gm_rule g) = false /\ b + w <= 2 /\ b' + w' <= 2 /\ position g (2, 2) = Some White.
Proof.
  destruct (rsample dbg 8 4 JAPANESE [MPlay 4 2; MPlay 2 2]) as [g|] eqn:E; [|destruct dbg; vm_compute in E; discriminate].
  assert (E' : rsample dbg' 8 4 JAPANESE [MPlay 4 2; MPlay 2 2] = Some g) by (rewrite <- E; destruct dbg, dbg'; vm_compute; reflexivity).
  destruct (rsample_reach dbg 8 4 JAPANESE _ g ltac:(lia) ltac:(lia) E) as (b & w & HG & L). destruct (rsample_reach dbg' 8 4 JAPANESE _ g ltac:(lia) ltac:(lia) E') as (b' & w' & HH & L').
  assert (F : match rsample dbg 8 4 JAPANESE [MPlay 4 2; MPlay 2 2] with
     | Some g => match put_handicap dbg g gift_points, tried dbg' g (with_passes gift_points) with
         | Ok g1, Some g2 => forallb (fun p => bool_decide (position g p = None)) gift_points && bool_decide (gm_turn g = Black) && bool_decide (gm_passes g = 0) && bool_decide (gm_ko_point g = None) &&
             bool_decide (gm_prisoners g2 = gm_prisoners g) && negb (forbids_superko (gm_rule g)) && bool_decide (position g (2, 2) = Some White)
         | _, _ => false end
     | _ => false end = true) by (destruct dbg, dbg'; vm_compute; reflexivity).
  rewrite E in F. destruct (put_handicap dbg g gift_points) as [g1| |] eqn:T1; [|discriminate..]. destruct (tried dbg' g (with_passes gift_points)) as [g2|] eqn:T2; [|discriminate].
  rewrite !andb_true_iff, !negb_true_iff, !bool_decide_eq_true in F. destruct F as [[[[[[F1 F2] F3] F4] F5] F6] F7].
  exists g, g1, g2, b, w, b', w'. split; [exists 2; reflexivity|]. split; [exact HG|]. split; [exact HH|]. split; [discriminate|]. split; [exact gift_nodup|].
  split.
  { intros p Hp. rewrite forallb_forall in F1. split; [|apply elem_of_list_In, F1, bool_decide_eq_true in Hp; exact Hp].
    unfold gift_points in Hp. rewrite !elem_of_cons, elem_of_nil in Hp. destruct Hp as [->|[->|[->|[]]]]; split; cbn; lia. }
  split; [exact F2|]. split; [exact F3|]. split; [exact F4|]. split; [exact T1|]. split; [apply tried_all, T2|]. split; [exact F5|]. split; [exact F6|]. split; [exact L|]. split; [exact L'|exact F7].
Qed.

(** a white stone in the corner is taken by two black stones, not by two handicap stones *)
Definition corner_points : list coord := [(0, 1); (1, 0)].

Lemma gift_capture dbg : exists g g1 g2 b w, rgreach dbg (4, 4) b w g /\ NoDup corner_points /\ (forall p, p ∈ corner_points -> ron (4, 4) p /\ position g p = None) /\
  gm_turn g = Black /\ gm_passes g = 0 /\ gm_ko_point g = None /\
  put_handicap dbg g corner_points = Ok g1 /\ all_accepted dbg g (with_passes corner_points) g2 /\
  position g1 (0, 0) = Some White /\ position g2 (0, 0) = None.
Proof.
  destruct (rsample dbg 4 4 JAPANESE [MPlay 3 3; MPlay 0 0]) as [g|] eqn:E; [|destruct dbg; vm_compute in E; discriminate].
  destruct (rsample_reach dbg 4 4 JAPANESE _ g ltac:(lia) ltac:(lia) E) as (b & w & HG & L).
  assert (F : match rsample dbg 4 4 JAPANESE [MPlay 3 3; MPlay 0 0] with
     | Some g => match put_handicap dbg g corner_points, tried dbg g (with_passes corner_points) with
         | Ok g1, Some g2 => forallb (fun p => bool_decide (position g p = None)) corner_points && bool_decide (gm_turn g = Black) && bool_decide (gm_passes g = 0) && bool_decide (gm_ko_point g = None) &&
             bool_decide (position g1 (0, 0) = Some White) && bool_decide (position g2 (0, 0) = None)
         | _, _ => false end
     | _ => false end = true) by (destruct dbg; vm_compute; reflexivity).
  rewrite E in F. destruct (put_handicap dbg g corner_points) as [g1| |] eqn:T1; [|discriminate..]. destruct (tried dbg g (with_passes corner_points)) as [g2|] eqn:T2; [|discriminate].
  rewrite !andb_true_iff, !bool_decide_eq_true in F. destruct F as [[[[[F1 F2] F3] F4] F5] F6].
  exists g, g1, g2, b, w. split; [exact HG|]. split; [repeat (constructor; [rewrite ?elem_of_cons, elem_of_nil; intuition discriminate|]); constructor|]. split.
  { intros p Hp. rewrite forallb_forall in F1. split; [|apply elem_of_list_In, F1, bool_decide_eq_true in Hp; exact Hp].
    unfold corner_points in Hp. rewrite !elem_of_cons, elem_of_nil in Hp. destruct Hp as [->|[->|[]]]; split; cbn; lia. }
  split; [exact F2|]. split; [exact F3|]. split; [exact F4|]. split; [exact T1|]. split; [apply tried_all, T2|]. split; [exact F5|exact F6].
Qed.
