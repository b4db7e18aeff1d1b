(** Concrete cases for the theorems about the past. *)
From stdpp Require Import relations.
From Verif Require Import PastSpec Spec Observe Reach Samples Game MonadFacts GameFacts RefuteFacts CaseFacts.
From Verif Require Import RectBridge RectSpec RectReach RectGo RectInv RectGame RectSymFacts RectSymClaims PastFacts.
From Coq Require Import Lia.
Local Notation length := Datatypes.length.
Local Open Scope nat_scope.

(** [ko_moves] with the first and the third move exchanged *)
Definition ko_moves' : list move := [MPlay 1 0; MPlay 0 2; MPlay 0 1; MPlay 1 3; MPlay 2 1; MPlay 2 2; MPlay 3 0; MPlay 1 1; MPlay 1 2].

(** [superko_moves] with the first and the third move exchanged *)
Definition superko_moves' : list move := [MPlay 1 0; MPlay 0 1; MPlay 0 0; MPlay 1 1; MPass; MPlay 1 0].

(** a position of the first list that differs from every position of the second *)
Definition apart (n : nat * nat) (l l' : list goban) : bool :=
  existsb (fun a => forallb (fun b => negb (forallb (fun p => bool_decide (pos_of a p = pos_of b p)) (rpoints n))) l') l.

Lemma apart_spec n l l' : apart n l l' = true -> exists a, a ∈ l /\ forall b, b ∈ l' -> ~ rsame_pos n (pos_of a) (pos_of b).
Proof.
  unfold apart. intros H. apply existsb_exists in H as (a & Ha & H). exists a. split; [apply elem_of_list_In, Ha|]. intros b Hb S. rewrite forallb_forall in H.
  apply elem_of_list_In, H in Hb. apply negb_true_iff in Hb. assert (forallb (fun p => bool_decide (pos_of a p = pos_of b p)) (rpoints n) = true) as E; [|congruence].
  apply forallb_forall. intros p Hp. apply bool_decide_eq_true_2, S, elem_of_rpoints, elem_of_list_In, Hp.
Qed.

Definition now_b (n : nat * nat) (g h : game) : bool :=
  forallb (fun p => bool_decide (position g p = position h p)) (rpoints n) &&
  bool_decide (gm_turn g = gm_turn h) && bool_decide (gm_passes g = gm_passes h) && match gm_outcome g, gm_outcome h with None, None => true | _, _ => false end &&
  bool_decide (gm_ko_point g = gm_ko_point h) && bool_decide (gm_prisoners g = gm_prisoners h).

Lemma now_b_spec n g h : now_b n g h = true -> gm_rule g = gm_rule h -> same_now n g h.
Proof.
  unfold now_b. rewrite !andb_true_iff, !bool_decide_eq_true. intros [[[[[H1 H2] H3] H4] H5] H6] R. constructor; try assumption.
  - exact (rsame_pos_b n _ _ H1).
  - destruct (gm_outcome g), (gm_outcome h); congruence.
Qed.

(** one ko fight reached in two orders *)
Lemma case_past dbg dbg' : exists g h b w b' w' a, Nat.divide 4 8 /\ rgreach dbg (8, 4) b w g /\ rgreach dbg' (8, 4) b' w' h /\ same_now (8, 4) g h /\
  forbids_superko (gm_rule g) = false /\ length (chains (gm_goban h)) = length (chains (gm_goban g)) /\ b + w <= 9 /\ b' + w' <= 9 /\
  gm_ko_point g = Some (1, 1) /\ a ∈ gm_history g /\ forall x, x ∈ gm_history h -> ~ rsame_pos (8, 4) (pos_of a) (pos_of x).
Proof.
  destruct (rsample dbg 8 4 JAPANESE ko_moves) as [g|] eqn:E; [|destruct dbg; vm_compute in E; discriminate].
  destruct (rsample dbg' 8 4 JAPANESE ko_moves') as [h|] eqn:E'; [|destruct dbg'; vm_compute in E'; discriminate].
  assert (F : match rsample dbg 8 4 JAPANESE ko_moves, rsample dbg' 8 4 JAPANESE ko_moves' with
     | Some g, Some h => now_b (8, 4) g h && (length (chains (gm_goban h)) =? length (chains (gm_goban g))) && bool_decide (gm_ko_point g = Some (1, 1)) && apart (8, 4) (gm_history g) (gm_history h)
     | _, _ => false end = true) by (destruct dbg, dbg'; vm_compute; reflexivity).
  assert (R : match rsample dbg 8 4 JAPANESE ko_moves, rsample dbg' 8 4 JAPANESE ko_moves' with
     | Some g, Some h => gm_rule g = JAPANESE /\ gm_rule h = JAPANESE | _, _ => False end) by (destruct dbg, dbg'; vm_compute; split; reflexivity).
  rewrite E, E' in F, R. destruct R as [R R']. rewrite !andb_true_iff, bool_decide_eq_true, Nat.eqb_eq in F. destruct F as [[[F1 F2] F3] F4].
  destruct (rsample_reach dbg 8 4 JAPANESE _ g ltac:(lia) ltac:(lia) E) as (b & w & HG & L). destruct (rsample_reach dbg' 8 4 JAPANESE _ h ltac:(lia) ltac:(lia) E') as (b' & w' & HH & L').
  destruct (apart_spec _ _ _ F4) as (a & Ha & Hx). exists g, h, b, w, b', w', a. split; [exists 2; reflexivity|]. split; [exact HG|]. split; [exact HH|].
  split; [apply now_b_spec; [exact F1|congruence]|]. rewrite R. split; [reflexivity|]. split; [exact F2|]. split; [exact L|]. split; [exact L'|]. split; [exact F3|]. split; [exact Ha|exact Hx].
Qed.

(** under Chinese rules a move is banned after one order and accepted after the other *)
Lemma superko_past dbg : exists g h b w b' w', rgreach dbg (2, 2) b w g /\ rgreach dbg (2, 2) b' w' h /\ same_now (2, 2) g h /\
  length (chains (gm_goban h)) = length (chains (gm_goban g)) /\ gm_rule g = CHINESE /\
  try_play dbg g (MPlay 0 0) = Ok (g, Refused EKo) /\ exists h', try_play dbg h (MPlay 0 0) = Ok (h', Accepted).
Proof.
  destruct (rsample dbg 2 2 CHINESE superko_moves) as [g|] eqn:E; [|destruct dbg; vm_compute in E; discriminate].
  destruct (rsample dbg 2 2 CHINESE superko_moves') as [h|] eqn:E'; [|destruct dbg; vm_compute in E'; discriminate].
  assert (F : match rsample dbg 2 2 CHINESE superko_moves, rsample dbg 2 2 CHINESE superko_moves' with
     | Some g, Some h => now_b (2, 2) g h && (length (chains (gm_goban h)) =? length (chains (gm_goban g))) && verdict_is (try_play dbg g (MPlay 0 0)) (Some EKo) && verdict_is (try_play dbg h (MPlay 0 0)) None
     | _, _ => false end = true) by (destruct dbg; vm_compute; reflexivity).
  assert (R : match rsample dbg 2 2 CHINESE superko_moves, rsample dbg 2 2 CHINESE superko_moves' with
     | Some g, Some h => gm_rule g = CHINESE /\ gm_rule h = CHINESE | _, _ => False end) by (destruct dbg; vm_compute; split; reflexivity).
  rewrite E, E' in F, R. destruct R as [R R']. rewrite !andb_true_iff, Nat.eqb_eq in F. destruct F as [[[F1 F2] F3] F4].
  destruct (rsample_reach dbg 2 2 CHINESE _ g ltac:(lia) ltac:(lia) E) as (b & w & HG & _). destruct (rsample_reach dbg 2 2 CHINESE _ h ltac:(lia) ltac:(lia) E') as (b' & w' & HH & _).
  exists g, h, b, w, b', w'. split; [exact HG|]. split; [exact HH|]. split; [apply now_b_spec; [exact F1|congruence]|]. split; [exact F2|]. split; [exact R|].
  split; [apply refused_is, F3|apply accepted_is, F4].
Qed.
