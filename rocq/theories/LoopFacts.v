(** Endless walks: when the model answers [Diverge] the iterator of the code yields
    stones for ever, and which calls reach such a state. *)
From stdpp Require Import relations sorting.
From Verif Require Import MonadFacts Struct Push Inv Bridge GameFacts PropFacts ClaimFacts RefuteFacts CaseFacts OccupiedFacts.
From Verif Require Export Observe Reach GroupMore Sgf SgfSpec BuildSpec.
From Coq Require Import Lia.

Local Notation length := Datatypes.length.
Open Scope nat_scope.

Lemma dup_witness {A} `{EqDecision A} (l : list A) : ~ NoDup l -> exists i j x, i < j /\ l !! i = Some x /\ l !! j = Some x.
Proof.
  induction l as [|a l IH]; intros H; [destruct H; constructor|]. destruct (decide (a ∈ l)) as [Ha|Ha].
  - apply elem_of_list_lookup in Ha as (j & Hj). exists 0, (S j), a. split; [lia|]. auto.
  - destruct IH as (i & j & x & L & Hi & Hj); [|exists (S i), (S j), x; split; [lia|]; auto].
    intros Nd. apply H. constructor; assumption.
Qed.

Section Walk.
Variables (dbg : bool) (nx : list nat) (o : nat).

(** the slot reached after [m] steps *)
Fixpoint stepn (m x : nat) : nat := match m with O => x | S m => default 0 (nx !! stepn m x) end.

Lemma stepn_shift m x : stepn m (default 0 (nx !! x)) = stepn (S m) x.
Proof. induction m as [|m IH]; [reflexivity|]. cbn [stepn] in *. rewrite IH. reflexivity. Qed.

Definition goes_on (x m : nat) : Prop :=
  stepn m x < length nx /\ stepn (S m) x <> o /\ (dbg = true -> stepn (S m) x <> stepn m x).

Lemma diverge_steps fuel : forall x, iter_from fuel dbg nx o x = Diverge -> forall m, m < fuel -> goes_on x m.
Proof.
  induction fuel as [|fuel IH]; intros x H m Hm; [lia|]. cbn [iter_from] in H. unfold vget in H.
  destruct (nx !! x) as [y|] eqn:Ey; cbn [unwrap bind] in H; [|discriminate H].
  destruct (y =? o) eqn:Eo; [discriminate H|]. apply Nat.eqb_neq in Eo as Ho. destruct (dbg && (y =? x)) eqn:Ed; [discriminate H|].
  destruct m as [|m].
  - unfold goes_on. cbn [stepn]. rewrite Ey. cbn. split; [apply lookup_lt_Some in Ey; exact Ey|]. split; [exact Ho|].
    intros ->. cbn in Ed. apply Nat.eqb_neq in Ed. exact Ed.
  - assert (E : iter_from fuel dbg nx o y = Diverge) by (destruct (iter_from fuel dbg nx o y); cbn in H; congruence).
    specialize (IH y E m ltac:(lia)). unfold goes_on in *. replace y with (default 0 (nx !! x)) in IH by (rewrite Ey; reflexivity).
    rewrite !stepn_shift in IH. exact IH.
Qed.

Lemma steps_for_ever x : (forall m, m < S (length nx) -> goes_on x m) -> forall m, goes_on x m.
Proof.
  intros H. assert (D : ~ NoDup (List.map (fun m => stepn m x) (seq 0 (S (length nx))))).
  { intros Nd. apply NoDup_bounded with (m := length nx) in Nd.
    - rewrite map_length, seq_length in Nd. lia.
    - intros i Hi. apply elem_of_list_In, in_map_iff in Hi as (m & <- & Hm). apply in_seq in Hm. apply H. lia. }
  apply dup_witness in D as (i & j & y & Hij & Hi & Hj).
  rewrite list_lookup_fmap in Hi, Hj. apply fmap_Some in Hi as (i' & Hi & Ey), Hj as (j' & Hj & Ey').
  apply lookup_seq in Hi as [-> Hi]. apply lookup_seq in Hj as [-> Hj]. cbn in Ey, Ey'.
  assert (P : forall m, exists m', m' < j /\ stepn m' x = stepn m x).
  { induction m as [|m (m' & L & E)]; [exists 0; split; [lia|reflexivity]|]. destruct (decide (S m' = j)) as [E'|N'].
    - exists i. split; [exact Hij|]. rewrite <- Ey, Ey', <- E'. cbn [stepn]. rewrite E. reflexivity.
    - exists (S m'). split; [lia|]. cbn [stepn]. rewrite E. reflexivity. }
  intros m. destruct (P m) as (m' & L & E). specialize (H m' ltac:(lia)). unfold goes_on in *. cbn [stepn] in *. rewrite E in H. exact H.
Qed.

Lemma steps_after k x : (forall m, goes_on x m) -> forall m, iter_after dbg nx (mkIter o (Some x) k) m = Ok (mkIter o (Some (stepn m x)) k) /\
  iter_next dbg nx (mkIter o (Some (stepn m x)) k) = Ok (mkIter o (Some (stepn (S m) x)) k, Some (stepn m x)).
Proof.
  intros H. assert (N : forall m, iter_next dbg nx (mkIter o (Some (stepn m x)) k) = Ok (mkIter o (Some (stepn (S m) x)) k, Some (stepn m x))).
  { intros m. destruct (H m) as (L & Ho & Hd). unfold iter_next. cbn [it_next it_origin it_num_stones]. unfold vget.
    destruct (lookup_lt_is_Some_2 nx (stepn m x) L) as [y Ey]. cbn [stepn] in Ho, Hd |- *. rewrite Ey in *. cbn in Ho, Hd |- *.
    destruct (Nat.eqb_spec y o); [congruence|]. cbn. destruct dbg; cbn; [|reflexivity]. destruct (Nat.eqb_spec (stepn m x) y); [|reflexivity].
    exfalso. apply Hd; congruence. }
  intros m. split; [|apply N].
  assert (A : forall a b, iter_after dbg nx (mkIter o (Some (stepn b x)) k) a = Ok (mkIter o (Some (stepn (a + b) x)) k)).
  { induction a as [|a IH]; intros b; [reflexivity|]. cbn [iter_after]. rewrite N. cbn [bind]. rewrite IH. do 3 f_equal. f_equal. lia. }
  specialize (A m 0). rewrite Nat.add_0_r in A. exact A.
Qed.
End Walk.

(** [Diverge] means that the iterator yields a stone on every call, for ever *)
Theorem walk_for_ever dbg grp nx : group_iter dbg grp nx = Diverge ->
  forall m, exists it it' i, iter_after dbg nx (iter_new grp) m = Ok it /\ iter_next dbg nx it = Ok (it', Some i).
Proof.
  intros H m. unfold group_iter in H.
  pose proof (steps_for_ever dbg nx (g_origin grp) (g_origin grp) (diverge_steps _ _ _ _ _ H)) as G.
  destruct (steps_after dbg nx (g_origin grp) (g_num_stones grp) (g_origin grp) G m) as [A B].
  eexists _, _, _. split; [exact A|exact B].
Qed.

(** Black has a row of three in the corner and a stone two points below its end;
    White plays on the middle of the row, Black joins the two: the walk along the
    joined chain never ends. *)
Definition row_moves : list move := [MPlay 0 0; MPass; MPlay 0 1; MPass; MPlay 0 2; MPass; MPlay 2 0].

Lemma walk_hangs : exists g b w g1,
  greach false 3 b w g /\ position g (0, 1) = Some Black /\ gm_turn g = White /\
  play false g (MPlay 0 1) = Ok g1 /\ position g1 (1, 0) = None /\
  play false g1 (MPlay 1 0) = Diverge /\ try_play false g1 (MPlay 1 0) = Diverge /\
  exists k grp, chains (gm_goban g1) !! k = Some (Some grp) /\ group_iter false grp (next_stone (gm_goban g1)) = Diverge.
Proof.
  destruct (sampleb false 3 JAPANESE row_moves (fun g =>
    bool_decide (position g (0, 1) = Some Black) && bool_decide (gm_turn g = White) &&
    match play false g (MPlay 0 1) with
    | Ok g1 => bool_decide (position g1 (1, 0) = None) &&
        match play false g1 (MPlay 1 0), try_play false g1 (MPlay 1 0) with Diverge, Diverge => true | _, _ => false end &&
        match chains (gm_goban g1) !! 0 with
        | Some (Some grp) => match group_iter false grp (next_stone (gm_goban g1)) with Diverge => true | _ => false end
        | _ => false
        end
    | _ => false end) ltac:(lia)) as (g & b & w & HG & _ & F).
  { vm_compute. reflexivity. }
  rewrite !andb_true_iff, !bool_decide_eq_true in F. destruct F as ((F1 & F2) & F).
  destruct (play false g (MPlay 0 1)) as [g1| |] eqn:E1; [|discriminate F..].
  rewrite !andb_true_iff, !bool_decide_eq_true in F. destruct F as ((F3 & F4) & F5).
  exists g, b, w, g1. do 5 (split; [assumption|]).
  destruct (play false g1 (MPlay 1 0)) eqn:E2; [discriminate F4..|]. destruct (try_play false g1 (MPlay 1 0)) eqn:E3; [discriminate F4..|].
  split; [reflexivity|]. split; [reflexivity|].
  destruct (chains (gm_goban g1) !! 0) as [[grp|]|] eqn:E4; [|discriminate F5..].
  exists 0, grp. split; [exact E4|]. destruct (group_iter _ _ _); [discriminate F5..|reflexivity].
Qed.

(** a record whose import does not end *)
Definition hang_root : sgf_node := [TGame true; TSize 9 9; TRule SJapanese].
Definition hang_rest : list sgf_node :=
  [[TMove Black (SMove 1 1)]; [TMove White (SMove 9 9)]; [TMove Black (SMove 2 1)]; [TMove White (SMove 9 8)];
   [TMove Black (SMove 3 1)]; [TMove White (SMove 8 9)]; [TMove Black (SMove 1 3)]; [TMove White (SMove 2 1)]; [TMove Black (SMove 1 2)]].

Lemma import_hangs : exists root rest, supported false root rest /\ supported true root rest /\
  alternate (first_player root) (List.map fst (omap first_move rest)) /\
  (forall m, m ∈ record_moves rest -> exists x y, m = MPlay x y /\ on 9 (x, y)) /\
  from_sgf_nodes false (root :: rest) = Diverge /\ from_sgf_nodes true (root :: rest) = Panic.
Proof.
  exists hang_root, hang_rest.
  assert (S : forall dbg, supported dbg hang_root hang_rest).
  { intros dbg. split.
    - intros t Ht. unfold hang_root in Ht. rewrite !elem_of_cons, elem_of_nil in Ht. destruct Ht as [->|[->|[->|[]]]]; cbn; auto; discriminate.
    - intros node c a Hn Hf. unfold hang_rest in Hn. rewrite !elem_of_cons, elem_of_nil in Hn.
      repeat destruct Hn as [->|Hn]; try destruct Hn; cbn in Hf; injection Hf as <- <-; cbn; lia. }
  split; [apply S|]. split; [apply S|]. split; [cbn; auto 20|]. split; [|split; vm_compute; reflexivity].
  intros m Hm. change (record_moves hang_rest) with
    [MPlay 0 0; MPlay 8 8; MPlay 0 1; MPlay 7 8; MPlay 0 2; MPlay 8 7; MPlay 2 0; MPlay 0 1; MPlay 1 0] in Hm.
  rewrite !elem_of_cons, elem_of_nil in Hm.
  repeat destruct Hm as [->|Hm]; try destruct Hm; eexists _, _; (split; [reflexivity|split; cbn; lia]).
Qed.

Lemma case_walk : exists grp nx, length nx = 361 /\ group_iter false grp nx = Diverge.
Proof.
  exists (mkGroup Black 0 2 EMPTY_LIBERTIES 2), (<[0 := 1]> (<[1 := 1]> (replicate 361 0))).
  split; [rewrite !insert_length, replicate_length; reflexivity|]. vm_compute. reflexivity.
Qed.
