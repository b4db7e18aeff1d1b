(** Coordinates outside the board, boards that are not square, board sizes. *)
From Verif Require Import Spec Reach Observe Game CoordFacts Struct Inv Bridge MonadFacts GameFacts BoardFacts.

Local Notation length := Datatypes.length.

(** ** No endless loop *)

Definition nd {A} (m : res A) : Prop := m <> Diverge.

Lemma nd_ok {A} (a : A) : nd (Ok a).
Proof. discriminate. Qed.
Lemma nd_panic {A} : nd (@Panic A).
Proof. discriminate. Qed.
Lemma nd_bind {A B} (m : res A) (k : A -> res B) : nd m -> (forall a, nd (k a)) -> nd (bind m k).
Proof. unfold nd. destruct m; cbn; auto. Qed.
Lemma nd_foldM {A S} (f : S -> A -> res S) l : (forall s x, nd (f s x)) -> forall s, nd (foldM f l s).
Proof. intros H. induction l as [|x l IH]; intros s; cbn; [apply nd_ok|]. apply nd_bind; [apply H|apply IH]. Qed.
Lemma panic_bind {A B} (m : res A) (k : A -> res B) : nd m -> (forall a, m = Ok a -> k a = Panic) -> bind m k = Panic.
Proof. unfold nd. destruct m; cbn; auto. congruence. Qed.

Lemma nd_vget {A} (l : list A) i : nd (vget l i).
Proof. unfold vget, unwrap. destruct (l !! i); discriminate. Qed.
Lemma nd_vset {A} (l : list A) i x : nd (vset l i x).
Proof. unfold vset. destruct (_ <? _)%nat; discriminate. Qed.
Lemma nd_push {A} k (l : list A) x : nd (av_push k l x).
Proof. unfold av_push. destruct (_ <? _)%nat; discriminate. Qed.
Lemma nd_assert b : nd (assert_ b).
Proof. destruct b; discriminate. Qed.
Lemma nd_debug dbg m : nd m -> nd (debug_assert dbg m).
Proof. intros H. unfold debug_assert. destruct dbg; [apply nd_bind; [exact H|intros; apply nd_assert]|apply nd_ok]. Qed.
Lemma nd_u8_add dbg a b : nd (u8_add dbg a b).
Proof. unfold u8_add. destruct (_ <? _)%nat, dbg; discriminate. Qed.
Lemma nd_unwrap {A} (o : option A) : nd (unwrap o).
Proof. destruct o; discriminate. Qed.

Global Hint Resolve nd_ok nd_panic nd_vget nd_vset nd_push nd_assert nd_u8_add nd_unwrap : nd.
Ltac nd := repeat first [solve [auto with nd] | apply nd_bind; [|intros] | apply nd_foldM; intros | apply nd_debug | case_match].

Lemma nd_neighbors dbg s i : nd (neighbors_idx dbg s i).
Proof. unfold neighbors_idx, one_to_2dim, valid_coords, neighbor_coords. nd. Qed.
Lemma nd_chain_at cs k : nd (chain_at cs k).
Proof. unfold chain_at. nd. Qed.
Lemma nd_chain_put cs k x : nd (chain_put cs k x).
Proof. unfold chain_put. nd. Qed.
Global Hint Resolve nd_neighbors nd_chain_at nd_chain_put : nd.
Lemma nd_classify g c l : nd (classify g c l).
Proof. unfold classify. nd. Qed.
Lemma nd_lib_get i l : nd (lib_get i l).
Proof. unfold lib_get. nd. Qed.
Lemma nd_lib_set v i l : nd (lib_set v i l).
Proof. unfold lib_set. nd. Qed.
Global Hint Resolve nd_classify nd_lib_get nd_lib_set : nd.
Lemma nd_remove_liberty dbg g i : nd (remove_liberty dbg g i).
Proof. unfold remove_liberty. nd. Qed.
Global Hint Resolve nd_remove_liberty : nd.
Lemma nd_remove_liberties dbg cs o p : nd (remove_liberties dbg cs o p).
Proof. unfold remove_liberties. nd. Qed.
Lemma nd_union g l : nd (union_liberties_slice g l).
Proof. unfold union_liberties_slice, add_liberty_unchecked. nd. Qed.
Global Hint Resolve nd_remove_liberties nd_union : nd.

(** ** Far outside the board: always a panic *)

Lemma vset_panic {A} (l : list A) i x : (length l <= i)%nat -> vset l i x = Panic.
Proof. intros H. unfold vset. destruct (Nat.ltb_spec i (length l)); [lia|reflexivity]. Qed.

Lemma create_panic dbg g o c libs : (length (next_stone g) <= o)%nat -> create_chain dbg g o c libs = Panic.
Proof.
  intros H. unfold create_chain. apply panic_bind; [nd|]. intros bits _. rewrite vset_panic by exact H. reflexivity.
Qed.

Lemma vset_length {A} (l : list A) i x l' : vset l i x = Ok l' -> length l' = length l.
Proof. unfold vset. destruct (_ <? _)%nat; [|discriminate]. intros [= <-]. apply insert_length. Qed.

Lemma add_panic dbg g k s : (length (next_stone g) <= s)%nat -> add_stone_to_chain dbg g k s = Panic.
Proof.
  intros H. unfold add_stone_to_chain. apply panic_bind; [nd|]. intros grp _.
  destruct (s <? g_origin grp)%nat.
  - rewrite vset_panic by exact H. reflexivity.
  - destruct (vset (next_stone g) (g_last grp) s) as [nx| |] eqn:E; cbn [bind]; [|reflexivity|exfalso; exact (nd_vset _ _ _ E)].
    rewrite vset_panic by (rewrite (vset_length _ _ _ _ E); exact H). reflexivity.
Qed.

Lemma push_far dbg g p c : (length (next_stone g) <= two_to_1dim (gsize g) p)%nat -> push_wth_feedback dbg g p c = Panic.
Proof.
  intros H. unfold push_wth_feedback. set (i := two_to_1dim (gsize g) p) in *. cbv zeta.
  apply panic_bind; [nd|]. intros nbs _. apply panic_bind; [nd|]. intros [[same oppo] libs] _.
  apply panic_bind; [nd|]. intros [cs dead] _.
  assert (E : place_stone dbg (with_chains g cs) i c same libs = Panic); [|rewrite E; reflexivity].
  unfold place_stone. destruct same as [|k [|k' same]].
  - apply create_panic. exact H.
  - apply panic_bind; [nd|]. intros a _. apply panic_bind; [nd|]. intros b _. apply panic_bind; [nd|]. intros d _.
    apply panic_bind; [nd|]. intros e _. rewrite add_panic; [reflexivity|exact H].
  - rewrite create_panic; [reflexivity|exact H].
Qed.

Lemma play_far dbg n b w g x y : ginv n b w g -> (361 <= x * n + y)%nat ->
  play dbg g (MPlay x y) = Panic /\ (gm_passes g <> 2%nat -> try_play dbg g (MPlay x y) = Panic).
Proof.
  intros G H. pose proof (gi_wf _ _ _ _ G) as W. split.
  - unfold play. destruct (history_insert_spec n (gm_history g) (gm_goban g) (gi_hist _ _ _ _ G) W) as (h & -> & _).
    cbn [bind]. rewrite push_far; [reflexivity|]. rewrite (wf_size n _ W), (wf0_next _ (wf_0 n _ W)). exact H.
  - intros Hp. unfold try_play. destruct (Nat.eqb_spec (gm_passes g) 2); [congruence|].
    unfold get_color, get_color_idx, vget. rewrite (wf_size n _ W).
    rewrite lookup_ge_None_2; [reflexivity|]. rewrite (wf0_board _ (wf_0 n _ W)). exact H.
Qed.

(** ** Just outside: the stone lands on another point *)

Lemma play_alias dbg n b w g x y x' y' : ginv n b w g -> (x * n + y = x' * n + y')%nat ->
  play dbg g (MPlay x y) = play dbg g (MPlay x' y').
Proof.
  intros G E. pose proof (gi_wf _ _ _ _ G) as W. unfold play, push_wth_feedback. rewrite (wf_size n _ W).
  unfold two_to_1dim. cbn [fst snd]. rewrite E. reflexivity.
Qed.

(** ** Boards that are not square *)

Lemma rect_collision h w : (2 <= h)%nat -> (h < w)%nat ->
  two_to_1dim (h, w) (0, h)%nat = two_to_1dim (h, w) (1, 0)%nat.
Proof. intros. unfold two_to_1dim. cbn. lia. Qed.

Lemma rect_round_trip h w : (1 <= h <= 19)%nat -> (1 <= w <= 19)%nat ->
  (forall r c, (r < h)%nat -> (c < w)%nat -> one_to_2dim (h, w) (two_to_1dim (h, w) (r, c)) = Ok (r, c)) <->
  (exists k, h = k * w)%nat.
Proof.
  intros Hh Hw.
  assert (E : forall r c, (r < h)%nat -> (c < w)%nat ->
    one_to_2dim (h, w) (two_to_1dim (h, w) (r, c)) = Ok ((r * h + c) / h, (r * h + c) mod w)%nat).
  { intros r c Hr Hc. unfold one_to_2dim, two_to_1dim, as_u8. cbn [fst snd].
    destruct (Nat.eqb_spec h 0), (Nat.eqb_spec w 0); try lia. cbn [orb]. rewrite !(Nat.mod_small _ 256); [reflexivity| |].
    - apply Nat.lt_le_trans with w; [apply Nat.mod_upper_bound; lia|lia].
    - apply Nat.div_lt_upper_bound; nia. }
  split.
  - intros H. destruct (Nat.eq_dec h 1) as [->|H1].
    + destruct (Nat.eq_dec w 1) as [->|H2]; [exists 1%nat; reflexivity|].
      pose proof (H 0%nat 1%nat ltac:(lia) ltac:(lia)) as F. rewrite (E 0%nat 1%nat) in F by lia. discriminate.
    + pose proof (H 1%nat 0%nat ltac:(lia) ltac:(lia)) as F. rewrite (E 1%nat 0%nat) in F by lia. injection F as _ F.
      assert (F2 : (h mod w = 0)%nat) by (transitivity ((1 * h + 0) mod w)%nat; [f_equal; lia|exact F]). exists (h / w)%nat. pose proof (Nat.div_mod h w ltac:(lia)). lia.
  - intros [k ->] r c Hr Hc. rewrite E by assumption. f_equal. f_equal.
    + assert (Hk : (1 <= k)%nat) by (destruct k; lia). rewrite Nat.div_add_l by nia. rewrite Nat.div_small by nia. lia.
    + rewrite Nat.mul_assoc, Nat.add_comm, Nat.mod_add by lia. apply Nat.mod_small, Hc.
Qed.


Lemma empties_new h w g : goban_new (h, w) = Ok g -> (1 <= h)%nat -> (1 <= w)%nat ->
  forall l p, get_empty_coords g = Ok l -> p ∈ l -> exists i, (i < h * w)%nat /\ one_to_2dim (h, w) i = Ok p.
Proof.
  intros E Hh Hw l p El Hp. unfold goban_new in E. cbn [fst snd] in E.
  destruct ((h <=? 19)%nat && (w <=? 19)%nat) eqn:Eb; [|discriminate]. cbn [assert_ bind] in E. injection E as <-.
  apply andb_true_iff in Eb as [B1 B2]. apply Nat.leb_le in B1, B2.
  unfold get_empty_coords in El. cbn [gsize fst snd board] in El.
  destruct (_ <=? _)%nat in El; [|discriminate]. cbn [assert_ bind] in El.
  assert (G : forall k len (b : list (option nat)) acc l, (forall q, q ∈ acc -> exists i, (i < k + len)%nat /\ one_to_2dim (h, w) i = Ok q) ->
    foldM (fun acc '(i, cell) => match cell with Some _ => Ok acc | None => let! p := one_to_2dim (h, w) i in Ok (acc ++ [p]) end)
      (zip (seq k len) b) acc = Ok l -> forall q, q ∈ l -> exists i, (i < k + len)%nat /\ one_to_2dim (h, w) i = Ok q).
  { clear. intros k len b. revert k len. induction b as [|x b IH]; intros k [|len] acc l Ha E q Hq; cbn in E;
      try (injection E as <-; apply Ha; exact Hq).
    replace (k + S len)%nat with (S k + len)%nat in * by lia.
    destruct x as [x|].
    - cbn in E. eapply IH; [|exact E|exact Hq]. exact Ha.
    - destruct (one_to_2dim (h, w) k) as [p| |] eqn:Ep; cbn in E; [|discriminate..].
      eapply IH; [|exact E|exact Hq]. intros q' Hq'. apply elem_of_app in Hq' as [Hq'|Hq']; [apply Ha, Hq'|].
      apply elem_of_list_singleton in Hq' as ->. exists k. split; [lia|exact Ep]. }
  eapply (G 0%nat (h * w)%nat); [|exact El|exact Hp]. intros q Hq. inversion Hq.
Qed.

Lemma rect_missing h w g : goban_new (h, w) = Ok g -> (1 <= h)%nat -> (1 <= w)%nat -> h <> w ->
  exists p, (fst p < h /\ snd p < w)%nat /\ forall l, get_empty_coords g = Ok l -> p ∉ l.
Proof.
  intros E Hh Hw Hne. pose proof (new_size (h, w) g E) as [_ [B1 B2]]. cbn in B1, B2.
  assert (K : forall i r c, (i < h * w)%nat -> one_to_2dim (h, w) i = Ok (r, c) -> r = ((i / h) mod 256)%nat /\ c = ((i mod w) mod 256)%nat).
  { intros i r c _. unfold one_to_2dim. cbn [fst snd]. destruct (_ || _); [discriminate|]. intros [= <- <-]. split; reflexivity. }
  destruct (Nat.lt_trichotomy h w) as [L|[L|L]]; [|congruence|].
  - exists (0, h)%nat. split; [cbn; lia|]. intros l El Hp.
    destruct (empties_new h w g E Hh Hw l _ El Hp) as (i & Hi & Ei). destruct (K i _ _ Hi Ei) as [K1 K2].
    assert (Hd : (i / h < w)%nat) by (apply Nat.div_lt_upper_bound; lia).
    rewrite Nat.mod_small in K1 by lia. assert (Hi' : (i < h)%nat) by (apply Nat.div_small_iff; lia).
    rewrite (Nat.mod_small i w), Nat.mod_small in K2 by lia. lia.
  - exists (w, 0)%nat. split; [cbn; lia|]. intros l El Hp.
    destruct (empties_new h w g E Hh Hw l _ El Hp) as (i & Hi & Ei). destruct (K i _ _ Hi Ei) as [K1 K2].
    assert (Hd : (i / h < w)%nat) by (apply Nat.div_lt_upper_bound; lia).
    rewrite Nat.mod_small in K1 by lia. lia.
Qed.

(** ** Sizes *)

Lemma size_exact h w r : 
  ((h mod 256 <= 19)%N /\ (w mod 256 <= 19)%N -> exists g, game_new (Custom h w) r = Ok g /\
     gsize (gm_goban g) = (N.to_nat (h mod 256), N.to_nat (w mod 256))) /\
  (~ ((h mod 256 <= 19)%N /\ (w mod 256 <= 19)%N) -> game_new (Custom h w) r = Panic).
Proof.
  unfold game_new, size_of, goban_new. cbn [fst snd].
  destruct (Nat.leb_spec (N.to_nat (h mod 256)) 19) as [H1|H1], (Nat.leb_spec (N.to_nat (w mod 256)) 19) as [H2|H2]; cbn [andb assert_ bind]; split; intros H;
    first [eexists; split; reflexivity | reflexivity | exfalso; lia].
Qed.
