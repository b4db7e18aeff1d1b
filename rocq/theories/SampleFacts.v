(** Running a sample game gives a reachable game. *)
From Verif Require Export Samples.
From Verif Require Import Bridge MonadFacts GameFacts LegalFacts.

Global Instance on_dec n p : Decision (on n p).
Proof. unfold on. apply _. Defined.

Lemma custom_size n : (n < 256)%nat -> size_of (Custom (N.of_nat n) (N.of_nat n)) = (n, n).
Proof.
  intros H. unfold size_of. rewrite N.mod_small by lia. rewrite Nat2N.id. reflexivity.
Qed.

Lemma free_spec n g p : free n g p = true -> on n p /\ pos_of (gm_goban g) p = None.
Proof.
  unfold free. rewrite !andb_true_iff, !Nat.ltb_lt. intros [[A B] C]. split; [split; assumption|].
  unfold pos_of. destruct (get_color _ _) as [[?|]| |]; congruence.
Qed.

Lemma plays_greach dbg n l : forall g b w g', greach dbg n b w g -> plays dbg n g l = Some g' ->
  exists b' w', greach dbg n b' w' g' /\ (b' + w' <= b + w + length l)%nat.
Proof.
  induction l as [|m l IH]; intros g b w g' HG E; cbn [plays] in E.
  { injection E as <-. exists b, w. split; [exact HG|lia]. }
  destruct m as [|c|x y].
  - destruct (play dbg g MPass) as [g1| |] eqn:EP; [|discriminate..].
    destruct (IH _ _ _ _ (gr_pass _ _ _ _ _ _ HG EP) E) as (b' & w' & H & Hle). exists b', w'. split; [exact H|cbn; lia].
  - destruct (play dbg g (MResign c)) as [g1| |] eqn:EP; [|discriminate..].
    destruct (IH _ _ _ _ (gr_resign _ _ _ _ _ _ _ HG EP) E) as (b' & w' & H & Hle). exists b', w'. split; [exact H|cbn; lia].
  - destruct (free n g (x, y)) eqn:EF; [|discriminate].
    destruct (play dbg g (MPlay x y)) as [g1| |] eqn:EP; [|discriminate..].
    apply free_spec in EF as [On Fr].
    destruct (IH _ _ _ _ (gr_play _ _ _ _ _ _ _ _ HG On Fr EP) E) as (b' & w' & H & Hle). exists b', w'.
    split; [exact H|]. destruct (gm_turn g); cbn [bump_count fst snd length] in *; lia.
Qed.

Lemma tries_lreach dbg n l : forall g g', lreach dbg n g -> tries dbg n g l = Some g' -> lreach dbg n g'.
Proof.
  induction l as [|m l IH]; intros g g' HG E; cbn [tries] in E.
  { injection E as <-. exact HG. }
  destruct m as [|c|x y].
  - destruct (try_play dbg g MPass) as [[g1 []]| |] eqn:EP; try discriminate.
    exact (IH _ _ (lr_pass _ _ _ _ HG EP) E).
  - destruct (try_play dbg g (MResign c)) as [[g1 []]| |] eqn:EP; try discriminate.
    exact (IH _ _ (lr_resign _ _ _ _ _ HG EP) E).
  - destruct ((x <? n)%nat && (y <? n)%nat) eqn:EF; [|discriminate].
    destruct (try_play dbg g (MPlay x y)) as [[g1 []]| |] eqn:EP; try discriminate.
    rewrite andb_true_iff, !Nat.ltb_lt in EF.
    exact (IH _ _ (lr_play _ _ _ _ _ _ HG EF EP) E).
Qed.

(** a sample played without checks *)
Lemma sample dbg n r l (P : game -> Prop) `{!forall g, Decision (P g)} :
  (1 <= n < 256)%nat -> sat (played dbg n r l) (fun g => bool_decide (P g)) = true ->
  exists g b w, greach dbg n b w g /\ (b + w <= length l)%nat /\ P g.
Proof.
  intros Hn. unfold played. destruct (game_new _ _) as [g0| |] eqn:E0; [|discriminate..].
  destruct (plays _ _ _ _) as [g|] eqn:E; [|discriminate]. cbn [sat]. intros Hp. apply bool_decide_eq_true in Hp.
  assert (H0 : greach dbg n 0 0 g0) by (eapply gr_new; [lia|apply custom_size; lia|exact E0]).
  destruct (plays_greach _ _ _ _ _ _ _ H0 E) as (b & w & HG & Hle). exists g, b, w. auto.
Qed.

(** a sample played with [try_play] *)
Lemma legal_sample dbg n r l (P : game -> Prop) `{!forall g, Decision (P g)} :
  (1 <= n < 256)%nat -> sat (tried dbg n r l) (fun g => bool_decide (P g)) = true ->
  exists g, lreach dbg n g /\ P g.
Proof.
  intros Hn. unfold tried. destruct (game_new _ _) as [g0| |] eqn:E0; [|discriminate..].
  destruct (tries _ _ _ _) as [g|] eqn:E; [|discriminate]. cbn [sat]. intros Hp. apply bool_decide_eq_true in Hp.
  assert (H0 : lreach dbg n g0) by (eapply lr_new; [lia|apply custom_size; lia|exact E0]).
  exists g. split; [exact (tries_lreach _ _ _ _ _ H0 E)|exact Hp].
Qed.
