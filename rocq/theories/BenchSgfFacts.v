(** Facts about the third benchmark. *)
From Verif Require Import Spec Reach Observe Ops SymSpec AreaSpec BenchSgf Struct Inv MonadFacts GameFacts SymFacts SetupFacts LongFacts AreaFacts PerftFacts TableSpec TableFacts BenchFacts.
From Coq Require Import Lia.

Local Notation length := Datatypes.length.
Local Notation mirror := (square_symmetry 19 2).
Local Notation mirrored := (image_move (square_symmetry 19 2) (fun c => c)).

Lemma accepted_plays dbg ms : forall g g', all_accepted dbg g ms g' -> foldM (fun g m => play dbg g m) ms g = Ok g'.
Proof.
  induction ms as [|m ms IH]; intros g g' H; cbn [all_accepted] in H; [cbn [foldM]; congruence|].
  destruct H as (g1 & E & H). cbn [foldM].
  assert (F : play dbg g m = Ok g1).
  { unfold try_play in E. destruct (gm_passes g =? 2)%nat; [discriminate|]. destruct m as [|c|x y].
    - destruct (play dbg g _) as [g2| |] eqn:P; [|discriminate..]. cbn [bind] in E. congruence.
    - destruct (play dbg g _) as [g2| |] eqn:P; [|discriminate..]. cbn [bind] in E. congruence.
    - destruct (get_color _ _) as [c| |]; [|discriminate..]. cbn [bind] in E. destruct (negb _); [discriminate|].
      destruct (check_point _ _ _) as [[e|]| |]; cbn [bind] in E; try discriminate.
      destruct (play dbg g _) as [g2| |] eqn:P; [|discriminate..]. cbn [bind] in E. congruence. }
  rewrite F. cbn [bind]. apply IH, H.
Qed.

Lemma run_accepted dbg ms : forall g g' tr, run dbg g (List.map OTry ms) = Ok (g', tr) ->
  (length tr <= length ms)%nat /\ (length tr = length ms <-> all_accepted dbg g ms g').
Proof.
  induction ms as [|m ms IH]; intros g g' tr E; cbn [List.map run] in E.
  - injection E as <- <-. cbn. split; [lia|]. split; intros _; reflexivity.
  - apply bind_ok in E as ([g1 e1] & E1 & E). apply bind_ok in E as ([g2 e2] & E2 & E). injection E as <- <-.
    destruct (IH _ _ _ E2) as [A B]. cbn [do_op] in E1. apply bind_ok in E1 as ([g3 v] & E3 & E1). injection E1 as <- <-.
    rewrite app_length. cbn [all_accepted length]. destruct v as [|e]; cbn [length].
    + split; [lia|]. split; intros H.
      * exists g3. split; [exact E3|]. apply B. lia.
      * destruct H as (g4 & E4 & H). rewrite E3 in E4. injection E4 as <-. apply B in H. lia.
    + split; [lia|]. split; intros H; [lia|]. destruct H as (g4 & E4 & _). rewrite E3 in E4. discriminate E4.
Qed.

Lemma accepted_runs dbg ms : forall g g', all_accepted dbg g ms g' -> exists tr, run dbg g (List.map OTry ms) = Ok (g', tr).
Proof.
  induction ms as [|m ms IH]; intros g g' H; cbn [all_accepted List.map run] in *; [exists []; congruence|].
  destruct H as (g1 & E & H). destruct (IH _ _ H) as [tr R]. cbn [do_op]. rewrite E. cbn [bind]. rewrite R. cbn [bind]. eexists. reflexivity.
Qed.

Lemma inverted_on m : (forall x y, m = MPlay x y -> on 19 (x, y)) -> inverted_move m = Ok (mirrored m).
Proof.
  destruct m as [|c|x y]; intros H; try reflexivity. destruct (H x y eq_refl) as [Hx _]. cbn [fst snd] in Hx.
  unfold inverted_move. do 19 (destruct x as [|x]; [reflexivity|]). lia.
Qed.

Lemma inverted_off x y : (19 <= x)%nat -> inverted_move (MPlay x y) = Panic.
Proof.
  intros H. unfold inverted_move. rewrite lookup_ge_None_2; [reflexivity|]. unfold inv_coord. rewrite rev_length, seq_length. exact H.
Qed.

Lemma replay_moves dbg ms : (forall x y, MPlay x y ∈ ms -> on 19 (x, y)) -> forall g,
  foldM (fun g m => let! to_play := inverted_move m in play dbg g to_play) ms g = foldM (fun g m => play dbg g m) (List.map mirrored ms) g.
Proof.
  induction ms as [|m ms IH]; intros H g; [reflexivity|]. cbn [foldM List.map].
  rewrite inverted_on. 2: { intros x y ->. apply H. left. }
  cbn [bind]. destruct (play dbg g (mirrored m)) as [g1| |]; cbn [bind]; try reflexivity. apply IH. intros x y Hin. apply H. right. exact Hin.
Qed.

(** the game after a handicap that is its own mirror image *)
Lemma handicap_image dbg hc g g1 : game_new Nineteen CHINESE = Ok g -> NoDup hc ->
  (forall p, p ∈ hc -> on 19 p /\ mirror p ∈ hc) -> (N.of_nat (length hc) <= 65535)%N -> put_handicap dbg g hc = Ok g1 ->
  greach dbg 19 (0 + length hc) 0 g1 /\ image_game 19 mirror (fun c => c) g1 g1 /\ image_history 19 mirror (fun c => c) g1 g1 /\ image_caught (fun c => c) g1 g1 /\ forbids_fill_eye (gm_rule g1) = false.
Proof.
  intros Hg Nd Hc L E.
  assert (HG : greach dbg 19 0 0 g) by (apply (gr_new dbg 19 Nineteen CHINESE g); [lia|reflexivity|exact Hg]).
  destruct (start_table dbg 19 Nineteen CHINESE g ltac:(lia) eq_refl Hg) as [A _].
  pose proof (sa_pos _ _ _ A) as A1. clear A.
  assert (Z : forall p, on 19 p -> pos_of (gm_goban g) p = None).
  { intros p Hp. pose proof (A1 p Hp) as A2. unfold table_of, start in A2. cbn [t_pos] in A2. unfold position in A2. exact A2. }
  assert (Hc' : forall p, p ∈ hc -> on 19 p /\ pos_of (gm_goban g) p = None).
  { intros p Hp. destruct (Hc p Hp) as [Hon _]. split; [exact Hon|apply Z, Hon]. }
  split. { apply (gr_handicap dbg 19 0 0 g hc g1 HG Nd Hc' E). }
  destruct (handicap_ok dbg 19 0 0 g hc (greach_inv _ _ _ _ _ HG) Nd Hc') as (g1' & E' & Hp & Ht & _ & Hr & Hpr & Hps & Ho & Hh & Hk); [cbn; exact L|].
  rewrite E in E'. injection E' as <-.
  unfold game_new in Hg. apply bind_ok in Hg as (gb & Eg & Hg). injection Hg as <-.
  cbn [gm_goban gm_passes gm_prisoners gm_outcome gm_turn gm_rule gm_handicap gm_history gm_ko_point] in *.
  assert (S : board_sym 19 mirror mirror (fun c => c)) by (apply (square_ok 19 2 (fun c => c)); [lia|reflexivity]).
  split.
  { constructor; rewrite ?Ho, ?Hk; try reflexivity.
    intros p Hon. unfold position. rewrite (Hp p Hon), (Hp _ (sy_on _ _ _ _ S p Hon)).
    rewrite (Z p Hon), (Z _ (sy_on _ _ _ _ S p Hon)).
    destruct (decide (p ∈ hc)) as [I|I], (decide (mirror p ∈ hc)) as [J|J]; try reflexivity; exfalso.
    - apply J. apply Hc, I.
    - apply I. rewrite <- (sy_left _ _ _ _ S p Hon). apply Hc, J. }
  split. { unfold image_history. rewrite Hh. constructor. }
  split. { intros c. reflexivity. }
  rewrite Hr. reflexivity.
Qed.

Theorem mirror_accepted dbg hc ms g g1 g2 : game_new Nineteen CHINESE = Ok g -> NoDup hc ->
  (forall p, p ∈ hc -> on 19 p /\ mirror p ∈ hc) -> put_handicap dbg g hc = Ok g1 ->
  (forall x y, MPlay x y ∈ ms -> on 19 (x, y)) -> (N.of_nat (length hc + length ms) <= 65535)%N ->
  all_accepted dbg g1 ms g2 ->
  exists h, all_accepted dbg g1 (List.map mirrored ms) h /\
    (forall p, on 19 p -> position h (mirror p) = position g2 p) /\
    gm_turn h = gm_turn g2 /\ gm_passes h = gm_passes g2 /\ gm_outcome h = gm_outcome g2 /\ gm_prisoners h = gm_prisoners g2.
Proof.
  intros Hg Nd Hc E Hm L Ha.
  destruct (handicap_image dbg hc g g1 Hg Nd Hc ltac:(lia) E) as (HG & I & IH & IC & Hf).
  assert (S : board_sym 19 mirror mirror (fun c => c)) by (apply (square_ok 19 2 (fun c => c)); [lia|reflexivity]).
  destruct (image_run 19 _ _ _ dbg dbg ms S _ _ _ _ _ _ HG HG I IH IC Hm) as (g' & h & tr & R1 & R2 & I1 & _ & I3); [lia|lia|left; exact Hf|].
  destruct (accepted_runs dbg ms g1 g2 Ha) as [tr2 R3]. rewrite R1 in R3.
  injection R3 as <- <-.
  destruct (run_accepted dbg ms _ _ _ R1) as [_ B1]. destruct (run_accepted dbg _ _ _ _ R2) as [_ B2].
  exists h. split. { apply B2. rewrite !map_length. apply B1. exact Ha. }
  destruct I1 as [P1 P2 P3 P4 _ _]. split.
  { intros p Hp. rewrite (P1 p Hp). destruct (position g' p); reflexivity. }
  split; [exact P2|]. split; [exact P3|]. split; [rewrite P4; destruct (gm_outcome g') as [[]|]; reflexivity|].
  pose proof (I3 Black) as Q1. pose proof (I3 White) as Q2. unfold caught in Q1, Q2. destruct (gm_prisoners g'), (gm_prisoners h). cbn in *. congruence.
Qed.

(** the benchmark's replay of any accepted record *)
Theorem replay_mirrored dbg hc ms g g1 g2 : game_new Nineteen CHINESE = Ok g -> NoDup hc ->
  (forall p, p ∈ hc -> on 19 p /\ square_symmetry 19 2 p ∈ hc) -> put_handicap dbg g hc = Ok g1 ->
  (forall x y, MPlay x y ∈ ms -> on 19 (x, y)) -> (N.of_nat (length hc + length ms) <= 65535)%N ->
  all_accepted dbg g1 ms g2 ->
  exists h, replay_inverted dbg hc ms = Ok h /\
    all_accepted dbg g1 (List.map (image_move (square_symmetry 19 2) (fun c => c)) ms) h /\
    (forall x y, on 19 (x, y) -> position h ((18 - x)%nat, y) = position g2 (x, y)) /\
    gm_turn h = gm_turn g2 /\ gm_passes h = gm_passes g2 /\ gm_outcome h = gm_outcome g2 /\ gm_prisoners h = gm_prisoners g2.
Proof.
  intros Hg Nd Hc E Hm L Ha. destruct (mirror_accepted dbg hc ms g g1 g2 Hg Nd Hc E Hm L Ha) as (h & A & P & R).
  exists h. split.
  { unfold replay_inverted. rewrite Hg. cbn [bind]. rewrite E. cbn [bind]. rewrite (replay_moves dbg ms Hm). apply accepted_plays, A. }
  split; [exact A|]. split; [|exact R]. intros x y Hp. exact (P (x, y) Hp).
Qed.

(** a record with a row past the board *)
Theorem replay_off dbg hc ms1 x y ms2 g : replay_inverted dbg hc ms1 = Ok g -> (19 <= x)%nat ->
  replay_inverted dbg hc (ms1 ++ MPlay x y :: ms2) = Panic.
Proof.
  intros H Hx. unfold replay_inverted in *. apply bind_ok in H as (g0 & -> & H). cbn [bind]. apply bind_ok in H as (g1 & -> & H). cbn [bind].
  rewrite foldM_app, H. cbn [bind foldM]. rewrite inverted_off by exact Hx. reflexivity.
Qed.
