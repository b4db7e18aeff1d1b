(** No operation changes the size of the board, whatever the state of the game. *)
From stdpp Require Import strings.
From Verif Require Import Spec Game Builder Sgf Ops SgfSpec BuildSpec RectBuildSpec MonadFacts Struct GameFacts OverFacts SgfFacts TableFacts BuildClaims.

Local Notation length := Datatypes.length.
Open Scope nat_scope.

Lemma foldM_keeps {A S X} (m : S -> X) (f : S -> A -> res S) l : (forall s a s', f s a = Ok s' -> m s' = m s) ->
  forall s s', foldM f l s = Ok s' -> m s' = m s.
Proof.
  intros H. induction l as [|a l IH]; intros s s' E; cbn [foldM] in E; [injection E as <-; reflexivity|].
  apply bind_ok in E as (s1 & E1 & E). rewrite (IH _ _ E). exact (H _ _ _ E1).
Qed.

Lemma group_for_keeps {S X} (m : S -> X) dbg grp nx (f : S -> nat -> res S) : (forall s a s', f s a = Ok s' -> m s' = m s) ->
  forall s s', group_for dbg grp nx f s = Ok s' -> m s' = m s.
Proof.
  intros H s s' E. apply for_from_inv in E as (l & _ & E). exact (foldM_keeps m f l H s s' E).
Qed.

Ltac unbind E := repeat (let x := fresh "x" in let E1 := fresh "E1" in apply bind_ok in E as (x & E1 & E)).

Lemma update_size dbg g k g' : update_chain_indexes_in_board dbg g k = Ok g' -> gsize g' = gsize g.
Proof. unfold update_chain_indexes_in_board. intros E. unbind E. injection E as <-. reflexivity. Qed.

Lemma create_size dbg g o c libs g' k : create_chain dbg g o c libs = Ok (g', k) -> gsize g' = gsize g.
Proof.
  unfold create_chain. intros E. apply bind_ok in E as (bits & _ & E). apply bind_ok in E as (nx & _ & E).
  destruct (put_free_spot _ _) as [cs k']. apply bind_ok in E as (g1 & E1 & E). injection E as <- <-. rewrite (update_size _ _ _ _ E1). reflexivity.
Qed.

Lemma add_size dbg g k s g' : add_stone_to_chain dbg g k s = Ok g' -> gsize g' = gsize g.
Proof.
  unfold add_stone_to_chain. intros E. apply bind_ok in E as (grp & _ & E). apply bind_ok in E as ([[nx o] l] & _ & E).
  unbind E. injection E as <-. reflexivity.
Qed.

Lemma merge_size dbg g a b g' : merge_strings dbg g a b = Ok g' -> gsize g' = gsize g.
Proof.
  unfold merge_strings. intros E. do 4 apply bind_ok in E as (? & _ & E).
  destruct (if (_ <? _)%nat then _ else _) as [o l]. do 3 apply bind_ok in E as (? & _ & E). apply bind_ok in E as (g1 & E1 & E). apply bind_ok in E as (? & _ & E).
  injection E as <-. cbn [with_chains gsize]. rewrite (update_size _ _ _ _ E1). reflexivity.
Qed.

Lemma merge_all_size dbg g t l g' k : merge_all dbg g t l = Ok (g', k) -> gsize g' = gsize g.
Proof.
  unfold merge_all. intros E. change (gsize (fst (g', k)) = gsize (fst (g, t))). revert E.
  apply (foldM_keeps (fun s : goban * nat => gsize (fst s))). clear. intros [g t] a [g' t'] E.
  do 2 apply bind_ok in E as (? & _ & E). destruct (_ <? _)%nat; apply bind_ok in E as (g1 & E1 & E); injection E as <- <-; exact (merge_size _ _ _ _ _ E1).
Qed.

Lemma place_size dbg g p c same libs g' k : place_stone dbg g p c same libs = Ok (g', k) -> gsize g' = gsize g.
Proof.
  unfold place_stone. intros E. destruct same as [|o [|o2 same]].
  - exact (create_size _ _ _ _ _ _ _ E).
  - do 4 apply bind_ok in E as (? & _ & E). apply bind_ok in E as (g1 & E1 & E). do 2 apply bind_ok in E as (? & _ & E).
    injection E as <- <-. cbn [with_board gsize]. rewrite (add_size _ _ _ _ _ E1). reflexivity.
  - apply bind_ok in E as ([g1 t1] & E1 & E). apply bind_ok in E as ([g2 t2] & E2 & E). do 3 apply bind_ok in E as (? & _ & E).
    injection E as <- <-. cbn [with_chains gsize]. rewrite (merge_all_size _ _ _ _ _ _ E2). exact (create_size _ _ _ _ _ _ _ E1).
Qed.

Lemma feedback_size dbg g p c g' d u : push_wth_feedback dbg g p c = Ok (g', d, u) -> gsize g' = gsize g.
Proof.
  unfold push_wth_feedback. intros E. apply bind_ok in E as (nbs & _ & E). apply bind_ok in E as ([[same oppo] libs] & _ & E).
  apply bind_ok in E as ([cs dead] & _ & E). apply bind_ok in E as ([g1 u1] & E1 & E). do 2 apply bind_ok in E as (? & _ & E).
  injection E as <- <- <-. cbn [with_hash gsize]. rewrite (place_size _ _ _ _ _ _ _ _ E1). reflexivity.
Qed.

Lemma push_size dbg g p c g' : push dbg g p c = Ok g' -> gsize g' = gsize g.
Proof.
  unfold push. intros E. do 2 apply bind_ok in E as (? & _ & E). apply bind_ok in E as ([[g1 d] u] & E1 & E). injection E as <-.
  exact (feedback_size _ _ _ _ _ _ _ E1).
Qed.

Lemma remove_size dbg g k g' : remove_chain dbg g k = Ok g' -> gsize g' = gsize g.
Proof.
  unfold remove_chain. intros E. apply bind_ok in E as (grp & _ & E). apply bind_ok in E as (g1 & E1 & E). apply bind_ok in E as (? & _ & E).
  injection E as <-. cbn [with_chains gsize]. revert E1. apply group_for_keeps. clear. intros g p g' E. unbind E. injection E as <-. reflexivity.
Qed.

Lemma captured_size dbg g su dead k g' r ko : remove_captured_stones_aux dbg g su dead k = Ok (g', r, ko) -> gsize g' = gsize g.
Proof.
  unfold remove_captured_stones_aux. intros E. apply bind_ok in E as ([[g1 r1] ko1] & E1 & E).
  assert (S1 : gsize g1 = gsize g).
  { change (gsize (fst (fst (g1, r1, ko1))) = gsize (fst (fst (g, (0, 0)%N, @None coord)))). revert E1.
    apply (foldM_keeps (fun s : goban * (N * N) * option coord => gsize (fst (fst s)))). clear. intros [[g r] ko] a [[g' r'] ko'] E.
    do 2 apply bind_ok in E as (? & _ & E). apply bind_ok in E as (g1 & E1 & E). injection E as <- <- <-. exact (remove_size _ _ _ _ E1). }
  apply bind_ok in E as (mine & _ & E). destruct (su && is_dead mine).
  - apply bind_ok in E as (g2 & E2 & E). injection E as <- <- <-. rewrite (remove_size _ _ _ _ E2). exact S1.
  - injection E as <- <- <-. exact S1.
Qed.

(** ** Games *)

Definition bsize (g : game) : size_t := gsize (gm_goban g).

Lemma play_size dbg g m g' : play dbg g m = Ok g' -> bsize g' = bsize g.
Proof.
  unfold play, bsize. destruct m as [|c|x y]; intros E.
  - apply bind_ok in E as (? & _ & E). injection E as <-. reflexivity.
  - injection E as <-. reflexivity.
  - apply bind_ok in E as (h & _ & E). apply bind_ok in E as ([[gb dead] added] & E1 & E). apply bind_ok in E as ([[gb' pris] ko] & E2 & E).
    injection E as <-. cbn [gm_goban]. unfold game_remove_captured_stones in E2.
    apply bind_ok in E2 as ([[gb2 [pb pw]] ko2] & E3 & E2). do 2 apply bind_ok in E2 as (? & _ & E2). injection E2 as <- <- <-.
    rewrite (captured_size _ _ _ _ _ _ _ _ E3). exact (feedback_size _ _ _ _ _ _ _ E1).
Qed.

Lemma try_play_cases dbg g m g' v : try_play dbg g m = Ok (g', v) -> g' = g \/ play dbg g m = Ok g'.
Proof.
  unfold try_play. destruct (gm_passes g =? 2); [intros E; injection E as <- <-; left; reflexivity|].
  destruct m as [|c|x y]; intros E.
  1,2: apply bind_ok in E as (g1 & E1 & E); injection E as <- <-; right; exact E1.
  apply bind_ok in E as (c & _ & E). destruct (negb _); [injection E as <- <-; left; reflexivity|].
  apply bind_ok in E as (e & _ & E). destruct e; [injection E as <- <-; left; reflexivity|].
  apply bind_ok in E as (g1 & E1 & E). injection E as <- <-. right. exact E1.
Qed.

Theorem calls_keep dbg ops : forall g g' l, calls dbg g ops = Ok (g', l) ->
  gsize (gm_goban g') = gsize (gm_goban g) /\ flag_illegal (gm_rule g') = flag_illegal (gm_rule g) /\ flag_score (gm_rule g') = flag_score (gm_rule g).
Proof.
  induction ops as [|o ops IH]; intros g g' l E; cbn [calls] in E; [injection E as <- _; auto|].
  apply bind_ok in E as ([g1 a] & E1 & E). apply bind_ok in E as ([g2 l2] & E2 & E). injection E as <- _.
  destruct (IH _ _ _ E2) as (H1 & H2 & H3). rewrite H1, H2, H3. clear - E1. destruct o as [m|m| |k|pts]; cbn [call] in E1.
  - apply bind_ok in E1 as (g3 & E3 & E1). injection E1 as <- _. rewrite (play_rule _ _ _ _ E3). split; [exact (play_size _ _ _ _ E3)|auto].
  - apply bind_ok in E1 as ([g3 v] & E3 & E1). injection E1 as <- _. apply try_play_cases in E3 as [->|E3]; [auto|].
    rewrite (play_rule _ _ _ _ E3). split; [exact (play_size _ _ _ _ E3)|auto].
  - injection E1 as <- _. auto.
  - injection E1 as <- _. auto.
  - apply bind_ok in E1 as (g3 & E3 & E1). injection E1 as <- _. unfold put_handicap in E3. apply bind_ok in E3 as (gb & E4 & E3). injection E3 as <-.
    cbn [gm_goban gm_rule]. split; [|auto]. revert E4. apply (foldM_keeps gsize). intros b p b' E. exact (push_size _ _ _ _ _ E).
Qed.

Theorem build_size dbg bl g : snd (build dbg bl) = Ok g -> gsize (gm_goban g) = b_size bl /\
  flag_illegal (gm_rule g) = flag_illegal (b_rule bl) /\ flag_score (gm_rule g) = flag_score (b_rule bl).
Proof.
  unfold build. cbn [snd]. rewrite build_inner_eq. intros E. apply bind_ok in E as (gb0 & E0 & E). apply bind_ok in E as (gb & E1 & E).
  assert (H : gsize (gm_goban g) = gsize gb /\ gm_rule g = gm_rule (built bl gb)).
  { change (gsize gb) with (bsize (built bl gb)). change (gsize (gm_goban g)) with (bsize g). split; revert E.
    - apply (foldM_keeps bsize). intros s m s' E. exact (play_size _ _ _ _ E).
    - apply (foldM_keeps gm_rule). intros s m s' E. exact (play_rule _ _ _ _ E). }
  destruct H as [H1 H2]. split.
  - rewrite H1. apply new_size in E0 as [E0 _]. rewrite <- E0. revert E1. apply (foldM_keeps gsize). intros s m s' E2. exact (push_size _ _ _ _ _ E2).
  - rewrite H2. unfold built. cbn [gm_rule]. destruct (b_komi bl); auto.
Qed.

Theorem import_size dbg root rest g : supported dbg root rest -> from_sgf_nodes dbg (root :: rest) = Ok g ->
  fst (gsize (gm_goban g)) = N.to_nat (fst (record_size root) mod 256) /\
  snd (gsize (gm_goban g)) = N.to_nat (snd (record_size root) mod 256).
Proof.
  intros Su. rewrite (sgf_supported dbg root rest Su). intros E. apply build_size in E as [E _]. rewrite E.
  unfold record_builder, b_size, record_size. destruct (last_said said_size root) as [[x y]|]; split; reflexivity.
Qed.
