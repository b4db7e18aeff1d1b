(** Claims about the third benchmark. *)
From stdpp Require Import relations.
From Verif Require Import Spec Reach Observe Ops SymSpec AreaSpec BenchSgf MonadFacts GameFacts ClaimFacts AreaFacts BenchFacts BenchSgfFacts.
From Verif Require RepoTests.
From Coq Require Import Lia.

Local Notation length := Datatypes.length.
Local Notation mirrored := (image_move (square_symmetry 19 2) (fun c => c)).

Lemma try_plays_accepted dbg ms : forall g g', RepoTests.try_plays dbg g ms = Ok g' -> all_accepted dbg g ms g'.
Proof.
  unfold RepoTests.try_plays. induction ms as [|m ms IH]; intros g g' E; cbn [foldM] in E; [injection E as <-; reflexivity|].
  apply bind_ok in E as (g1 & E1 & E). apply bind_ok in E1 as ([g2 v] & E2 & E1). cbn [all_accepted].
  destruct v as [|e]; [|discriminate E1]. injection E1 as <-. exists g2. split; [exact E2|]. apply IH, E.
Qed.

Definition play_on (m : move) : bool := match m with MPlay x y => (x <? 19)%nat && (y <? 19)%nat | MPass => true | MResign _ => false end.

Lemma all_on ms : forallb play_on ms = true -> Forall (plain 19) ms /\ forall x y, MPlay x y ∈ ms -> on 19 (x, y).
Proof.
  intros H. split.
  - induction ms as [|m ms IH]; [constructor|]. cbn [forallb] in H. apply andb_prop in H as [H1 H2]. constructor; [|apply IH, H2].
    destruct m as [|c|x y]; [exact I|discriminate|]. unfold play_on in H1. apply andb_prop in H1 as [A B]. apply Nat.ltb_lt in A, B. split; assumption.
  - intros x y Hin. rewrite forallb_forall in H. apply elem_of_list_In in Hin. specialize (H _ Hin). unfold play_on in H.
    apply andb_prop in H as [A B]. apply Nat.ltb_lt in A, B. split; assumption.
Qed.

Lemma record_mirrored : List.map RepoTests.inverted RepoTests.moves_sgf = List.map mirrored MOVES_SGF.
Proof. vm_compute. reflexivity. Qed.

Lemma record_on : forallb play_on MOVES_SGF = true.
Proof. vm_compute. reflexivity. Qed.

Lemma mirrored_on : forallb play_on (List.map mirrored MOVES_SGF) = true.
Proof. vm_compute. reflexivity. Qed.

Lemma mirrored_twice : List.map mirrored (List.map mirrored MOVES_SGF) = MOVES_SGF.
Proof. vm_compute. reflexivity. Qed.

Lemma bench_handicap_ok : NoDup bench_handicap /\ (forall p, p ∈ bench_handicap -> on 19 p /\ square_symmetry 19 2 p ∈ bench_handicap) /\
  (N.of_nat (length bench_handicap + length MOVES_SGF) <= 65535)%N.
Proof.
  split; [apply (bool_decide_eq_true_1 (NoDup bench_handicap)); vm_compute; reflexivity|]. split; [|vm_compute; discriminate].
  intros p Hp. assert (H : forallb (fun p => (fst p <? 19)%nat && (snd p <? 19)%nat && bool_decide (square_symmetry 19 2 p ∈ bench_handicap)) bench_handicap = true) by (vm_compute; reflexivity).
  rewrite forallb_forall in H. apply elem_of_list_In in Hp. specialize (H _ Hp). apply andb_prop in H as [H C]. apply andb_prop in H as [A B].
  apply Nat.ltb_lt in A, B. apply bool_decide_eq_true_1 in C. split; [split; assumption|exact C].
Qed.

Lemma tested_parts dbg s hc ms (test : game -> bool) :
  RepoTests.is_ok (let! g := s in let! g := put_handicap dbg g hc in RepoTests.try_plays dbg g ms) test = true ->
  exists g g1 h, s = Ok g /\ put_handicap dbg g hc = Ok g1 /\ all_accepted dbg g1 ms h /\ test h = true.
Proof.
  intros T. destruct s as [g| |]; [|discriminate T..]. cbn [bind] in T.
  destruct (put_handicap dbg g hc) as [g1| |] eqn:E1; [|discriminate T..]. cbn [bind] in T.
  destruct (RepoTests.try_plays dbg g1 ms) as [h| |] eqn:E2; [|discriminate T..]. cbn [RepoTests.is_ok] in T.
  exists g, g1, h. split; [reflexivity|]. split; [exact E1|]. split; [apply try_plays_accepted, E2|exact T].
Qed.

Lemma tested_both (f : bool -> bool) dbg : RepoTests.in_both f = true -> f dbg = true.
Proof. unfold RepoTests.in_both. intros H. apply andb_prop in H as [A B]. destruct dbg; assumption. Qed.

Lemma bench_tested dbg : exists g g1 h, game_new Nineteen CHINESE = Ok g /\ put_handicap dbg g bench_handicap = Ok g1 /\
  all_accepted dbg g1 (List.map mirrored MOVES_SGF) h /\ is_over h = true /\ gm_prisoners h = (16, 35)%N.
Proof.
  destruct (tested_parts dbg _ _ _ _ (tested_both _ dbg RepoTests.some_plays_from_sgf)) as (g & g1 & h & E & E1 & A & T).
  exists g, g1, h. split; [exact E|]. split; [exact E1|]. rewrite record_mirrored in A. split; [exact A|].
  apply andb_prop in T as [T1 T2]. unfold RepoTests.pair_eqb in T2. apply andb_prop in T2 as [T2 T3]. apply N.eqb_eq in T2, T3. cbn [fst snd] in T2, T3.
  split; [exact T1|]. destruct (gm_prisoners h). cbn [fst snd] in *. congruence.
Qed.

(** the record as it stands is accepted too *)
Lemma case_replay dbg : exists g g1 g2, game_new Nineteen CHINESE = Ok g /\ NoDup bench_handicap /\
  (forall p, p ∈ bench_handicap -> on 19 p /\ square_symmetry 19 2 p ∈ bench_handicap) /\ put_handicap dbg g bench_handicap = Ok g1 /\
  (forall x y, MPlay x y ∈ MOVES_SGF -> on 19 (x, y)) /\ (N.of_nat (length bench_handicap + length MOVES_SGF) <= 65535)%N /\
  all_accepted dbg g1 MOVES_SGF g2 /\ gm_prisoners g2 = (16, 35)%N.
Proof.
  destruct (bench_tested dbg) as (g & g1 & h & E & E1 & A & _ & P). destruct bench_handicap_ok as (N1 & N2 & N3).
  destruct (mirror_accepted dbg bench_handicap (List.map mirrored MOVES_SGF) g g1 h E N1 N2 E1) as (g2 & A2 & _ & _ & _ & _ & P2).
  { apply all_on, mirrored_on. } { rewrite map_length. exact N3. } { exact A. }
  rewrite mirrored_twice in A2. exists g, g1, g2. split; [exact E|]. split; [exact N1|]. split; [exact N2|]. split; [exact E1|].
  split; [apply all_on, record_on|]. split; [exact N3|]. split; [exact A2|]. rewrite P2. exact P.
Qed.

Theorem bench_record dbg : exists g g1 h, game_new Nineteen CHINESE = Ok g /\ put_handicap dbg g bench_handicap = Ok g1 /\
  some_plays_from_sgf dbg = Ok h /\ all_accepted dbg g1 (List.map (image_move (square_symmetry 19 2) (fun c => c)) MOVES_SGF) h /\
  is_over h = true /\ gm_prisoners h = (16, 35)%N /\
  count 19 (position h) Black = 129%nat /\ count 19 (position h) White = 140%nat.
Proof.
  destruct (bench_tested dbg) as (g & g1 & h & E & E1 & A & O & P). destruct bench_handicap_ok as (N1 & N2 & N3).
  exists g, g1, h. split; [exact E|]. split; [exact E1|]. split.
  { unfold some_plays_from_sgf, replay_inverted. rewrite E. cbn [bind]. rewrite E1. cbn [bind]. rewrite replay_moves by apply all_on, record_on. apply accepted_plays, A. }
  split; [exact A|]. split; [exact O|]. split; [exact P|].
  destruct (handicap_image dbg bench_handicap g g1 E N1 N2 ltac:(lia) E1) as (HG & _).
  assert (T : gm_turn g1 = White).
  { unfold put_handicap in E1. apply bind_ok in E1 as (gb & _ & E1). injection E1 as <-. reflexivity. }
  destruct (accepted_all_reach dbg 19 (List.map mirrored MOVES_SGF) _ _ _ _ HG (proj1 (all_on _ mirrored_on)) A) as [G _].
  rewrite T in G. destruct (claim_prisoners dbg 19 _ _ h G) as [B W]. rewrite P in B, W. cbn [fst snd] in B, W.
  assert (S1 : stone_moves White Black (List.map mirrored MOVES_SGF) = 158%nat) by (vm_compute; reflexivity).
  assert (S2 : stone_moves White White (List.map mirrored MOVES_SGF) = 156%nat) by (vm_compute; reflexivity).
  rewrite S1 in B. rewrite S2 in W. change (length bench_handicap) with 6%nat in B. split; lia.
Qed.

(** a handicap that is not its own mirror image *)
Definition one_sided (dbg : bool) : bool :=
  RepoTests.is_ok (game_new Nineteen CHINESE) (fun g => RepoTests.is_ok (put_handicap dbg g [(0, 0)%nat]) (fun g1 =>
    match try_play dbg g1 (MPlay 9 9), replay_inverted dbg [(0, 0)%nat] [MPlay 9 9] with
    | Ok (h, Accepted), Ok h' => mcolor_eqb (position h (0, 0)%nat) (Some Black) && mcolor_eqb (position h' (18, 0)%nat) None
    | _, _ => false
    end)).

Lemma one_sided_tested dbg : one_sided dbg = true.
Proof. destruct dbg; vm_compute; reflexivity. Qed.

Theorem one_sided_handicap dbg : exists g g1 h h', game_new Nineteen CHINESE = Ok g /\ put_handicap dbg g [(0, 0)%nat] = Ok g1 /\
  all_accepted dbg g1 [MPlay 9 9] h /\ replay_inverted dbg [(0, 0)%nat] [MPlay 9 9] = Ok h' /\
  position h (0, 0)%nat = Some Black /\ position h' (18, 0)%nat = None.
Proof.
  pose proof (one_sided_tested dbg) as T. unfold one_sided in T.
  destruct (game_new Nineteen CHINESE) as [g| |] eqn:E; [|discriminate T..]. cbn [RepoTests.is_ok] in T.
  destruct (put_handicap dbg g [(0, 0)%nat]) as [g1| |] eqn:E1; [|discriminate T..]. cbn [RepoTests.is_ok] in T.
  destruct (try_play dbg g1 (MPlay 9 9)) as [[h []]| |] eqn:E2; [|discriminate T..].
  destruct (replay_inverted dbg [(0, 0)%nat] [MPlay 9 9]) as [h'| |] eqn:E3; [|discriminate T..].
  apply andb_prop in T as [T1 T2]. exists g, g1, h, h'. split; [reflexivity|]. split; [exact E1|].
  split; [exists h; split; [exact E2|reflexivity]|]. split; [reflexivity|].
  split; [destruct (position h _) as [[]|]; try reflexivity; discriminate T1|destruct (position h' _) as [[]|]; try reflexivity; discriminate T2].
Qed.

Lemma case_replay_off dbg : exists g, replay_inverted dbg bench_handicap MOVES_SGF = Ok g /\ (19 <= 19)%nat.
Proof. destruct (bench_record dbg) as (_ & _ & h & _ & _ & E & _). exists h. split; [exact E|lia]. Qed.
