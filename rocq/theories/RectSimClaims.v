(** Cases for lines of play and simulations on tall boards. *)
From stdpp Require Import relations sorting.
From Verif Require Import Spec AreaSpec SymSpec ScoreSpec Observe Reach Samples RectPerftSpec RectSimSpec RectCountSpec RectReach RectGo Bench.
From Verif Require Import RectCoord RectBridge RectMoves CoordFacts Inv GameFacts MonadFacts PlayoutFacts RectInv RectGame RectReachFacts RectVerdict RectPlayout RectCases RectTable RectLegal LegalFacts TableFacts CaseFacts PerftFacts RectPerft RectSim RectPlayoutClaims RectScore PlayClaims BenchClaims.
From Coq Require Import Lia.

Local Notation length := Datatypes.length.
Open Scope nat_scope.

Definition tall_sims (i : nat) : choices :=
  mkChoices (fun j => seq j j) (fun j k => wheel (3 * k + j)) (fun j => if j =? 0 then Black else White) (fun _ ms => length ms - 1).

Lemma tall_fair nb i : fair nb (tall_sims i).
Proof. split; [intros j k l; apply wheel_perm|]. intros rs ms _ H. cbn. destruct ms; [contradiction|cbn; lia]. Qed.

Definition tall_eval (dbg : bool) (g : game) : list (res nat) := List.map (simulation (fun l => l) 100 dbg (tall_sims 0) g) [0; 1; 2].

(** Black has one eye in the corner of a board with nine rows and three columns *)
Lemma case_rsimulated dbg : exists g b w, Nat.divide 3 9 /\ rgreach dbg (9, 3) b w g /\ gm_outcome g = None /\ is_over g = false /\ (forall i, fair 2 (tall_sims i)) /\
  N.testbit (flag_score (gm_rule g)) 1 = true /\ is_f32 (komi g) /\ halves (komi g) 13 /\ Z.odd 13 = true /\ (Z.abs 13 <= 200000)%Z /\
  (47316994 < N.of_nat (N.to_nat 47316995))%N /\ tall_eval dbg g = [Ok 0; Ok 1; Ok 1] /\
  dead_stones_wth_simulations (fun l => l) 100 2 tall_sims dbg g = Ok [2].
Proof.
  assert (Hd : Nat.divide 3 9) by (exists 3; reflexivity).
  destruct (rsample dbg 9 3 JAPANESE RectPlayoutClaims.corner_moves) as [g|] eqn:E; [|destruct dbg; vm_compute in E; discriminate].
  assert (F : match rsample dbg 9 3 JAPANESE RectPlayoutClaims.corner_moves with
     | Some g => negb (is_over g) && match gm_outcome g with None => true | _ => false end &&
         N.testbit (flag_score (gm_rule g)) 1 && bool_decide (komi g = f32_make 13 (-1)) &&
         match tall_eval dbg g with [Ok 0; Ok 1; Ok 1] => true | _ => false end &&
         match dead_stones_wth_simulations (fun l => l) 100 2 tall_sims dbg g with Ok [2] => true | _ => false end
     | None => false end = true) by (destruct dbg; vm_compute; reflexivity).
  rewrite E in F. bools F. apply negb_true_iff in F. apply bool_decide_eq_true in F2.
  destruct (rsample_reach dbg 9 3 JAPANESE _ g ltac:(lia) ltac:(lia) E) as (b & w & HG & _).
  exists g, b, w. split; [exact Hd|]. split; [exact HG|]. split; [destruct (gm_outcome g); congruence|]. split; [exact F|]. split; [intros i; apply tall_fair|].
  split; [exact F3|]. rewrite F2. do 4 (split; [vm_compute; reflexivity || discriminate|]). split; [rewrite N2Nat.id; lia|]. split.
  - destruct (tall_eval dbg g) as [|[[|[|]]| |] [|[[|[|]]| |] [|[[|[|]]| |] [|]]]]; try discriminate. reflexivity.
  - destruct (dead_stones_wth_simulations (fun l => l) 100 2 tall_sims dbg g) as [[|[|[|[|]]] [|]]| |]; try discriminate. reflexivity.
Qed.

(** both colours pass at once; each owns half of the board, and Black is given the win against the komi *)
Theorem wrong_reward dbg : exists g b w final, rgreach dbg (6, 3) b w g /\ is_over g = false /\ gm_rule g = CHINESE /\ komi g = f32_make 15 (-1) /\
  descend dbg (ch_way (tall_sims 0) 0) g = Ok g /\ playout 100 0 (ch_shuffles (tall_sims 0) 0) dbg g = Ok final /\ ch_color (tall_sims 0) 0 = Black /\
  card (fun p => position final p = Some Black /\ ron (6, 3) p \/ rowned (6, 3) (position final) Black p) 9 /\
  card (fun p => position final p = Some White /\ ron (6, 3) p \/ rowned (6, 3) (position final) White p) 9 /\
  simulation (fun l => l) 100 dbg (tall_sims 0) g 0 = Ok 1.
Proof.
  destruct (rsample dbg 6 3 CHINESE (take 13 wrong_moves)) as [g|] eqn:E; [|destruct dbg; vm_compute in E; discriminate].
  assert (K : match rsample dbg 6 3 CHINESE (take 13 wrong_moves) with
     | Some g => negb (is_over g) && bool_decide (komi g = f32_make 15 (-1)) &&
         match playout 100 0 (ch_shuffles (tall_sims 0) 0) dbg g with Ok h => forallb (fun p => has h p (wrong_position p)) (rpoints (6, 3)) | _ => false end &&
         match simulation (fun l => l) 100 dbg (tall_sims 0) g 0 with Ok 1 => true | _ => false end
     | None => false end = true) by (destruct dbg; vm_compute; reflexivity).
  assert (KR : match rsample dbg 6 3 CHINESE (take 13 wrong_moves) with Some g => Some (gm_rule g) | None => None end = Some CHINESE) by (destruct dbg; vm_compute; reflexivity).
  rewrite E in K, KR. apply (f_equal (fun o => match o with Some r => r | None => CHINESE end)) in KR. bools K. apply negb_true_iff in K. apply bool_decide_eq_true in K2.
  destruct (playout 100 0 (ch_shuffles (tall_sims 0) 0) dbg g) as [h| |] eqn:P; [|discriminate K1..].
  assert (HP : forall p, ron (6, 3) p -> position h p = wrong_position p).
  { intros p Hp. rewrite forallb_forall in K1. apply elem_of_rpoints, elem_of_list_In in Hp. exact (bool_decide_eq_true_1 _ (K1 p Hp)). }
  destruct (rsample_reach dbg 6 3 CHINESE _ g ltac:(lia) ltac:(lia) E) as (b & w & HG & _).
  exists g, b, w, h. split; [exact HG|]. split; [exact K|]. split; [exact KR|]. split; [exact K2|]. split; [reflexivity|]. split; [exact P|]. split; [reflexivity|]. split.
  { change 9 with (3 * 3). apply (card_rows _ 0); [|intros p Hp|lia].
    - intros p [[_ Hp]|[Hp _]]; exact Hp.
    - pose proof (proj1 (wrong_owned _ HP p Hp)). cbn. split; [intros [[H1 _]|H1]; [assert (fst p < 3) by tauto|assert (fst p < 3) by tauto]; lia|intros [_ H1]].
      apply H in H1 as [H1|H1]; [left; auto|right; exact H1]. }
  split.
  { change 9 with (3 * 3). apply (card_rows _ 3); [|intros p Hp|lia].
    - intros p [[_ Hp]|[Hp _]]; exact Hp.
    - pose proof (proj2 (wrong_owned _ HP p Hp)). assert (fst p < 6) by (destruct Hp; assumption).
      cbn. split; [intros [[H1 _]|H1]; [assert (3 <= fst p) by tauto|assert (3 <= fst p) by tauto]; lia|intros [H1 _]].
      apply H in H1 as [H1|H1]; [left; auto|right; exact H1]. }
  destruct (simulation (fun l => l) 100 dbg (tall_sims 0) g 0) as [[|[|]]| |]; try discriminate K0. reflexivity.
Qed.

Lemma case_rperft dbg : exists g b w, fst (9, 3) = 3 * snd (9, 3) /\ rgreach dbg (9, 3) b w g /\ gm_passes g <> 2 /\ (N.of_nat (b + w + 3) <= 65535)%N /\
  perft dbg g 1 = Ok 3%N /\ perft dbg g 2 = Ok 27%N /\ perft dbg g 3 = Ok 162%N.
Proof.
  destruct (rsample dbg 9 3 JAPANESE RectPlayoutClaims.corner_moves) as [g|] eqn:E; [|destruct dbg; vm_compute in E; discriminate].
  assert (F : match rsample dbg 9 3 JAPANESE RectPlayoutClaims.corner_moves with
     | Some g => (gm_passes g =? 1) && counts dbg g 1 3 && counts dbg g 2 27 && counts dbg g 3 162
     | None => false end = true) by (destruct dbg; vm_compute; reflexivity).
  rewrite E in F. bools F. destruct (rsample_reach dbg 9 3 JAPANESE _ g ltac:(lia) ltac:(lia) E) as (b & w & HG & HB). cbn in HB. apply Nat.eqb_eq in F.
  exists g, b, w. split; [reflexivity|]. split; [exact HG|]. split; [lia|]. split; [lia|]. split; [exact (counts_eq _ _ _ _ F2)|]. split; [exact (counts_eq _ _ _ _ F1)|exact (counts_eq _ _ _ _ F0)].
Qed.

(** one black stone on a board with four rows and two columns: seven points are left *)
Theorem perft_overcounts dbg : exists g b w, rgreach dbg (4, 2) b w g /\ position g (3, 0) = Some Black /\
  number_of (fun ms => length ms = 1 /\ (forall p, p ∈ ms -> ron (4, 2) p) /\ rplayable_line (4, 2) (flag_illegal (gm_rule g)) (table_of g) ms) 7 /\
  perft dbg g 1 = Ok 8%N.
Proof.
  assert (Hd : Nat.divide 2 4) by (exists 2; reflexivity).
  set (ok := fun (g : game) (p : coord) => match try_play dbg g (MPlay (fst p) (snd p)) with Ok (_, Accepted) => true | _ => false end).
  destruct (rsample dbg 4 2 JAPANESE [MPlay 3 0]) as [g|] eqn:E; [|destruct dbg; vm_compute in E; discriminate].
  assert (F : match rsample dbg 4 2 JAPANESE [MPlay 3 0] with
     | Some g => has g (3, 0) (Some Black) && (length (List.filter (ok g) (rpoints (4, 2))) =? 7) && counts dbg g 1 8
     | None => false end = true) by (destruct dbg; vm_compute; reflexivity).
  rewrite E in F. bools F. apply Nat.eqb_eq in F1. destruct (rsample_reach dbg 4 2 JAPANESE _ g ltac:(lia) ltac:(lia) E) as (b & w & HG & HB). cbn in HB.
  exists g, b, w. split; [exact HG|]. split; [exact (bool_decide_eq_true_1 _ F)|]. split; [|exact (counts_eq _ _ _ _ F0)].
  exists (List.map (fun p => [p]) (List.filter (ok g) (rpoints (4, 2)))). split; [|split].
  - apply NoDup_ListNoDup, FinFun.Injective_map_NoDup; [intros p q [= ->]; reflexivity|]. apply List.NoDup_filter, NoDup_ListNoDup, NoDup_rpoints.
  - intros ms. rewrite elem_of_list_In, in_map_iff. split.
    + intros (p & <- & Hp). apply filter_In in Hp as [Hp Hok]. apply elem_of_list_In, elem_of_rpoints in Hp. split; [reflexivity|]. split; [intros q Hq; apply elem_of_list_singleton in Hq as ->; exact Hp|].
      unfold ok in Hok. destruct (try_play dbg g (MPlay (fst p) (snd p))) as [[g' []]| |] eqn:T; try discriminate Hok.
      destruct (rcalls_sim dbg (4, 2) (line_ops [p]) b w g Hd HG) as (g2 & l & Ec & R).
      { intros o Ho. apply elem_of_list_singleton in Ho as ->. cbn. rewrite <- surjective_pairing. exact Hp. }
      { rewrite line_stones. cbn. lia. }
      assert (Ha : all_accepted dbg g (stones_on [p]) g') by (exists g'; split; [exact T|reflexivity]).
      apply line_calls in Ha. rewrite Ha in Ec. injection Ec as <- <-. exists (table_of g'). exact R.
    + intros (El & Hon & t' & R). destruct ms as [|p [|]]; [discriminate El| |discriminate El]. exists p. split; [reflexivity|].
      apply filter_In. split; [apply elem_of_list_In, elem_of_rpoints, Hon; left|].
      destruct (rcalls_follow dbg (4, 2) (flag_illegal (gm_rule g)) (line_ops [p]) b w g (table_of g) _ t' Hd HG eq_refl (rsame_table_refl _ _) R) as (g' & Ec & _).
      { rewrite line_stones. cbn. lia. }
      apply (line_calls dbg [p]) in Ec as (g1 & T & _). unfold ok. rewrite T. reflexivity.
  - rewrite map_length, F1. reflexivity.
Qed.
